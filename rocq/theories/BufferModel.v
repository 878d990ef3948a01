(** Model of /repo/src/BKBuffer.h and /repo/src/BKBuffer.c. *)
From Verif Require Import CInt Kernels.

(** [struct BKBuffer], BKBuffer.h lines 48-55.  The pointer [pulse] to a kernel
    table is represented by the table itself (32 rows of [BK_STEP_WIDTH]). *)
Record buffer := mk_buffer {
  b_time     : Z;               (* BKFUInt20 time *)
  b_capacity : Z;               (* BKUInt capacity *)
  b_accum    : Z;               (* BKInt accum *)
  b_frames   : list Z;          (* BKInt frames [BK_BUFFER_CAPACITY] *)
  b_pulse    : list (list Z)    (* BKBufferPulse const * pulse *)
}.

(** BKBuffer.h line 36 (4096 + 32 + 1) and lines 29-34. *)
Definition BK_BUFFER_CAPACITY : nat := Z.to_nat 4129.
Definition BK_STEP_WIDTH : Z := 32.
Definition BK_STEP_SHIFT : Z := 5.

(** [BKBufferPulseKernels], BKBuffer.c lines 110-114. *)
Definition BKBufferPulseKernels : list (list (list Z)) :=
  [BKBufferStepPhasesSinc; BKBufferStepPhasesHarm].

(** [BKBufferClear], BKBuffer.c lines 171-177. *)
Definition BKBufferClear (buf : buffer) : buffer :=
  mk_buffer 0 0 0 (repeat 0 BK_BUFFER_CAPACITY) (b_pulse buf).

(** [BKBufferInit], BKBuffer.c lines 116-124. *)
Definition BKBufferInit : buffer :=
  mk_buffer 0 0 0 (repeat 0 BK_BUFFER_CAPACITY) BKBufferStepPhasesHarm.

(** [BKBufferEnd], BKBuffer.h lines 116-128. *)
Definition BKBufferEnd (buf : buffer) (time : Z) : buffer :=
  let time := u32 (b_time buf + time) in
  let offset := Z.shiftr time BK_FINT20_SHIFT in
  mk_buffer (b_time buf)
            (if offset >? b_capacity buf then offset else b_capacity buf)
            (b_accum buf) (b_frames buf) (b_pulse buf).

(** [BKBufferShift], BKBuffer.h lines 130-143. *)
Definition BKBufferShift (buf : buffer) (time : Z) : buffer :=
  let maxShift := u32 (Z.shiftl (b_capacity buf) BK_FINT20_SHIFT) in
  let time := if u32 (b_time buf + time) >? maxShift
              then u32 (maxShift - b_time buf) else time in
  mk_buffer (u32 (b_time buf + time)) (b_capacity buf) (b_accum buf)
            (b_frames buf) (b_pulse buf).

(** [BKBufferSize], BKBuffer.h lines 145-148. *)
Definition BKBufferSize (buf : buffer) : Z := Z.shiftr (b_time buf) BK_FINT20_SHIFT.

(** The loop of [BKBufferAddPulse], BKBuffer.h lines 167-169: [n] iterations
    are left, the next index is [i]. *)
Fixpoint add_pulse_loop (n : nat) (i : Z) (phase : list Z) (offset pulse : Z)
         (frames : list Z) : res (list Z) :=
  match n with
  | O => Ok frames
  | S n =>
      let* k := aget phase i in
      let* prod := chk32 (k * pulse) in
      let* f := aget frames (offset + i) in
      let* v := chk32 (f + prod) in
      let* frames := aset frames (offset + i) v in
      add_pulse_loop n (i + 1) phase offset pulse frames
  end.

(** [BKBufferAddPulse], BKBuffer.h lines 150-172.  The parameter [pulse] has
    type [BKFrame]: the argument is converted to 16 bits. *)
Definition BKBufferAddPulse (buf : buffer) (time pulse : Z) : res buffer :=
  let pulse := s16 pulse in
  let time := u32 (b_time buf + time) in
  let offset := Z.shiftr time BK_FINT20_SHIFT in
  let frac := Z.land time BK_FINT20_FRAC in
  let frac := Z.shiftr frac (BK_FINT20_SHIFT - BK_STEP_SHIFT) in
  let* phase := aget (b_pulse buf) frac in
  let* frames := add_pulse_loop (Z.to_nat BK_STEP_WIDTH) 0 phase offset pulse (b_frames buf) in
  Ok (mk_buffer (b_time buf) (b_capacity buf) (b_accum buf) frames (b_pulse buf)).

(** [BKBufferAddFrame], BKBuffer.h lines 174-184. *)
Definition BKBufferAddFrame (buf : buffer) (time frame : Z) : res buffer :=
  let frame := s16 frame in
  let time := u32 (b_time buf + time) in
  let offset := Z.shiftr time BK_FINT20_SHIFT in
  let* prod := chk32 (BK_MAX_VOLUME * frame) in
  let* f := aget (b_frames buf) offset in
  let* v := chk32 (f + prod) in
  let* frames := aset (b_frames buf) offset v in
  Ok (mk_buffer (b_time buf) (b_capacity buf) (b_accum buf) frames (b_pulse buf)).

(** Lines 145-149 and 152 of [BKBufferRead]: fraction removed, clamped sample.
    [BK_FRAME_MAX] is unsigned, so the exclusive-or is an unsigned operation
    whose result is converted back to [BKInt]; the store narrows to [BKFrame]. *)
Definition out_sample (accum : Z) : Z :=
  let amp := Z.shiftr accum (32 - 16 - 2) in
  let amp := if s16 amp =? amp then amp
             else s32 (Z.lxor (u32 (Z.shiftr amp 16)) BK_FRAME_MAX) in
  s16 amp.

(** The loop of [BKBufferRead], BKBuffer.c lines 141-154, over the frames that
    are read; returns the new accumulator and the samples in order. *)
Fixpoint read_loop (frames : list Z) (accum : Z) : res (Z * list Z) :=
  match frames with
  | [] => Ok (accum, [])
  | f :: rest =>
      let* accum := chk32 (accum - Z.shiftr accum (32 - 23)) in
      let* accum := chk32 (accum + f) in
      let* r := read_loop rest accum in
      Ok (fst r, out_sample accum :: snd r)
  end.

(** [BKBufferRead], BKBuffer.c lines 131-169.  The samples are returned as a
    list; where they are stored ([interlace]) is modelled in ContextModel.v. *)
Definition BKBufferRead (buf : buffer) (size : Z) : res (buffer * list Z) :=
  let size := BKMin size (b_capacity buf) in
  if size >? Z.of_nat (length (b_frames buf)) then Err EBounds else
  let* r := read_loop (firstn (Z.to_nat size) (b_frames buf)) (b_accum buf) in
  let bufferSize := u32 (b_capacity buf + BK_STEP_WIDTH + 1) in
  if bufferSize >? Z.of_nat (length (b_frames buf)) then Err EBounds else
  let moved := firstn (Z.to_nat (bufferSize - size)) (skipn (Z.to_nat size) (b_frames buf)) in
  let rest := skipn (Z.to_nat bufferSize) (b_frames buf) in
  Ok (mk_buffer (u32 (b_time buf - u32 (Z.shiftl size BK_FINT20_SHIFT)))
                (u32 (b_capacity buf - size))
                (fst r)
                (moved ++ repeat 0 (Z.to_nat size) ++ rest)
                (b_pulse buf),
      snd r).

(** Operations a client performs on one buffer. *)
Inductive bop :=
| BPulse (time pulse : Z)
| BFrame (time frame : Z)
| BEnd (time : Z)
| BShift (time : Z)
| BRead (size : Z)
| BClear
| BKernel (k : bool).   (* BKContext.c: [buf -> pulse = BKBufferPulseKernels [i]] *)

(** Arguments are converted to their parameter types ([BKFUInt20], [BKUInt]). *)
Definition bstep (b : buffer) (o : bop) : res (buffer * list Z) :=
  match o with
  | BPulse t p => let* b := BKBufferAddPulse b (u32 t) p in Ok (b, [])
  | BFrame t p => let* b := BKBufferAddFrame b (u32 t) p in Ok (b, [])
  | BEnd t => Ok (BKBufferEnd b (u32 t), [])
  | BShift t => Ok (BKBufferShift b (u32 t), [])
  | BRead n => BKBufferRead b (u32 n)
  | BClear => Ok (BKBufferClear b, [])
  | BKernel k => Ok (mk_buffer (b_time b) (b_capacity b) (b_accum b) (b_frames b)
                     (if k then BKBufferStepPhasesHarm else BKBufferStepPhasesSinc), [])
  end.

Fixpoint bruns (b : buffer) (ops : list bop) : res (buffer * list Z) :=
  match ops with
  | [] => Ok (b, [])
  | o :: ops =>
      let* r := bstep b o in
      let* r' := bruns (fst r) ops in
      Ok (fst r', snd r ++ snd r')
  end.

(** Several pulses in a row. *)
Fixpoint add_all (b : buffer) (l : list (Z * Z)) : res buffer :=
  match l with
  | [] => Ok b
  | (t, p) :: l => let* b := BKBufferAddPulse b t p in add_all b l
  end.

(** One round as performed by the context (BKContext.c [BKContextRun],
    [BKContextEnd], [BKContextRead]): pulses, end, shift, read. *)
Definition round_run (b : buffer) (pulses : list (Z * Z)) (te n : Z) : res (buffer * list Z) :=
  let* b := add_all b pulses in
  let b := BKBufferEnd b te in
  let b := BKBufferShift b te in
  BKBufferRead b n.

Fixpoint rounds_run (b : buffer) (rs : list (list (Z * Z) * Z * Z)) : res (buffer * list Z) :=
  match rs with
  | [] => Ok (b, [])
  | (pulses, te, n) :: rs =>
      let* r := round_run b pulses te n in
      let* r' := rounds_run (fst r) rs in
      Ok (fst r', snd r ++ snd r')
  end.
