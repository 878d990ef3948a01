(** Model of data objects as a whole, BKData.c: copying, setting and loading frames,
    normalising, reducing bits and disposing.  Frames lie in numbered blocks of memory.
    Not modelled: failing allocations of a possible size, the list of states (DataModel.v). *)
From Verif Require Import CInt DataModel WaveModel.

(** ** Memory *)

(** Blocks of frames: [None] is memory which does not exist (any more), an indeterminate frame is
    [None] inside.  Blocks from [malloc] have numbers from 0 on, below [hp_next]; the memory of
    the client has negative numbers. *)
Record heap := mk_heap { hp_block : Z -> option (list (option Z)); hp_next : Z }.
Definition hset (h : heap) (p : Z) (b : option (list (option Z))) : heap :=
  mk_heap (fun q => if q =? p then b else hp_block h q) (hp_next h).
Definition hget (h : heap) (p : Z) : res (list (option Z)) :=
  match hp_block h p with Some b => Ok b | None => Err EFreed end.
(** [malloc] of [n] frames with contents [b]. *)
Definition malloc (h : heap) (b : list (option Z)) : heap * Z :=
  (mk_heap (fun q => if q =? hp_next h then Some b else hp_block h q) (hp_next h + 1), hp_next h).
(** [free]: only what [malloc] returned. *)
Definition hfree (h : heap) (p : option Z) : res heap :=
  match p with
  | None => Ok h
  | Some p => if p <? 0 then Err EFreed else let* _ := hget h p in Ok (hset h p None)
  end.
(** Contents of a block after [realloc] to [n] frames. *)
Definition resized (n : nat) (b : list (option Z)) : list (option Z) := firstn n b ++ repeat None (n - length b).
(** [realloc]; the block always moves. *)
Definition realloc (h : heap) (p : option Z) (n : nat) : res (heap * Z) :=
  let* old := match p with None => Ok [] | Some p => hget h p end in
  let* h := hfree h p in
  Ok (malloc h (resized n old)).

(** ** The object *)

(** [BKData], BKData.h lines 86-98.  [bd_init], [bd_copy] are flags; [bd_isa] tells if the class is set. *)
Record bkdata := mk_bkdata {
  bd_init : bool; bd_copy : bool; bd_isa : bool;
  bd_numBits : Z; bd_sampleRate : Z; bd_numFrames : Z; bd_numChannels : Z;
  bd_pitch : Z; bd_sustain : Z * Z; bd_frames : option Z
}.
(** [BKDataInit], BKData.c lines 162-165, and an object filled with zeros. *)
Definition zero_data (init : bool) : bkdata := mk_bkdata init false init 0 0 0 0 0 (0, 0) None.
Definition BKDataInit : bkdata := zero_data true.

(** The fields which describe the frames. *)
Definition put_frames (d : bkdata) (copy : bool) (numBits rate numFrames numChannels : Z) (frames : option Z) : bkdata :=
  mk_bkdata (bd_init d) copy (bd_isa d) numBits rate numFrames numChannels (bd_pitch d) (bd_sustain d) frames.

(** [BKDispose] with [BKDataDisposeObject], BKObject.c lines 150-174 and BKData.c lines 172-179. *)
Definition BKDataDispose (h : heap) (d : bkdata) : res (heap * bkdata) :=
  if negb (bd_isa d) then Ok (h, d) else
  if negb (bd_init d) then Ok (h, d) else
  let* h := if bd_copy d then hfree h (bd_frames d) else Ok h in
  Ok (h, zero_data false).

(** [memcpy] of [n] frames from the block [src] into the block [dst]. *)
Definition copy_block (h : heap) (dst : Z) (src : option Z) (n : nat) : res heap :=
  match src with
  | None => if Nat.eqb n 0 then Ok h else Err ENull
  | Some src =>
    let* s := hget h src in
    let* t := hget h dst in
    if Nat.ltb (length s) n || Nat.ltb (length t) n then Err EBounds else
    Ok (hset h dst (Some (firstn n s ++ skipn n t)))
  end.

(** [BKDataSetFrames], BKData.c lines 334-384.  [size] is a 32 bit number: the number of frames
    that are copied is [size / 2]. *)
Definition BKDataSetFrames (h : heap) (d : bkdata) (frames : option Z) (numFrames numChannels : Z) (copy : bool) : res (heap * bkdata * Z) :=
  if numFrames <? 2 then Ok (h, d, BK_INVALID_NUM_FRAMES) else
  if (numChannels <? 1) || (numChannels >? BK_MAX_CHANNELS) then Ok (h, d, BK_INVALID_NUM_CHANNELS) else
  let size := u32 (u32 (numFrames * numChannels) * 2) in
  let n := Z.to_nat (size / 2) in
  if copy then
    let* (h, p) := if bd_copy d then realloc h (bd_frames d) n else Ok (malloc h (repeat None n)) in
    let* h := copy_block h p frames n in
    Ok (h, put_frames d true 16 (bd_sampleRate d) numFrames numChannels (Some p), 0)
  else
    let* h := if bd_copy d then hfree h (bd_frames d) else Ok h in
    match frames with
    | None => Ok (h, d, -1)
    | Some p => Ok (h, put_frames d (bd_copy d) 16 (bd_sampleRate d) numFrames numChannels (Some p), 0)
    end.

(** [BKDataInitCopy], lines 189-208: all flags but [BK_DATA_FLAG_COPY] are cleared. *)
Definition BKDataInitCopy (h : heap) (original : bkdata) : res (heap * bkdata * Z) :=
  let copy := mk_bkdata false (bd_copy original) (bd_isa original) (bd_numBits original) (bd_sampleRate original) (bd_numFrames original)
                        (bd_numChannels original) (bd_pitch original) (bd_sustain original) None in
  match bd_frames original with
  | Some p => BKDataSetFrames h copy (Some p) (bd_numFrames original) (bd_numChannels original) true
  | None => Ok (h, copy, 0)
  end.

(** [BKDataSetData], lines 542-584, with the memory. *)
Definition BKDataSetBytes (big : bool) (h : heap) (d : bkdata) (bytes : list Z) (dataSize numChannels params : Z) : res (heap * bkdata * Z) :=
  let* (s, ret) := BKDataSetData big bytes dataSize numChannels params in
  match s with
  | None => Ok (h, d, ret)
  | Some s =>
    let* (h, p) := if bd_copy d then realloc h (bd_frames d) (length (ds_frames s)) else Ok (malloc h (repeat None (length (ds_frames s)))) in
    Ok (hset h p (Some (ds_frames s)), put_frames d (bd_copy d) (ds_numBits s) (bd_sampleRate d) (ds_numFrames s) (ds_numChannels s) (Some p), ret)
  end.

(** [BKDataLoadRaw], lines 586-622, for a seekable file; reading from a position behind the end
    gives a size below 0 which [malloc] rejects. *)
Definition BKDataLoadRaw (big : bool) (h : heap) (d : bkdata) (f : file) (numChannels params : Z) : res (heap * bkdata * Z * file) :=
  let offset := f_pos f in
  let f := fseek_end f in
  let size := fsize f - offset in
  if size <? 0 then Ok (h, d, BK_ALLOCATION_ERROR, f) else
  let f := fseek f offset in
  let (bytes, f) := fread f size in
  let* (h, d, ret) := BKDataSetBytes big h d bytes (u32 size) numChannels params in
  Ok (h, d, ret, f).

(** [BKDataLoadWAVE], lines 624-660.  [x] is what the memory of the frames contains before they
    are read.  A negative number of frames is a size which [malloc] rejects. *)
Definition BKDataLoadWAVE (n : nat) (big : bool) (x : Z) (h : heap) (d : bkdata) (f : file) : res (heap * bkdata * Z) :=
  match BKWaveFileReaderInit f with
  | (0, Some r) =>
    let* (r, ret, fmt) := BKWaveFileReaderReadHeader n big r in
    if ret <? 0 then Ok (h, d, BK_INVALID_RETURN_VALUE) else
    let '(numChannels, sampleRate, numFrames) := fmt in
    let* count := chk32 (numFrames * numChannels) in
    if count <? 0 then Ok (h, d, BK_ALLOCATION_ERROR) else
    let* (r, out) := BKWaveFileReaderReadFrames n big r (repeat x (Z.to_nat count)) in
    let (h, p) := malloc h (map Some out) in
    Ok (h, put_frames d true 16 sampleRate (u32 numFrames) (u32 numChannels) (Some p), 0)
  | _ => Ok (h, d, BK_INVALID_RETURN_VALUE)
  end.

(** [BKDataSetPtr] and [BKDataGetPtr] with [BK_SAMPLE_SUSTAIN_RANGE], lines 262-331. *)
Definition set_sustain (d : bkdata) (values : option (Z * Z)) : res bkdata :=
  let* s := BKDataSetSustainRange (bd_numFrames d) values in
  Ok (mk_bkdata (bd_init d) (bd_copy d) (bd_isa d) (bd_numBits d) (bd_sampleRate d) (bd_numFrames d) (bd_numChannels d) (bd_pitch d) s (bd_frames d)).

(** ** Reducing bits *)

(** One frame of [BKDataReduceBits], lines 727-773: [dither] is the value added if there is
    dithering, [threshold] the lowest magnitude which is kept. *)
Definition reduce_frame (bits threshold frame dither : Z) : res Z :=
  let maxValue := 32767 in
  let downsample := 15 - bits + 1 in
  let deltaDither := if bits <=? 8 then 2 ^ downsample - 1 else 0 in
  let* frame32 :=
    if BKAbs frame >=? threshold then
      if negb (deltaDither =? 0) then chk32 (frame + dither) else Ok frame
    else Ok 0 in
  let frame32 := BKClamp frame32 (- maxValue) maxValue in
  let (tmpDownsample, frame32) :=
    if bits <=? 8 then
      let frame32 := BKClamp (Z.shiftr frame32 1 - 32768 / 2) (- maxValue) maxValue in
      (downsample - 1, - Z.shiftr frame32 (downsample - 1))
    else (downsample, - Z.shiftr frame32 downsample) in
  let* m := chk32 (frame32 * maxValue) in
  Ok (s16 (Z.quot m (2 ^ (15 - tmpDownsample)))).

(** The loop, lines 727-774.  [sum] and [lastFrame] are whole numbers, which [float] represents
    exactly.  [dither i sum] is the value computed with [rand], [pow] and the curve for frame [i]:
    it may be any number. *)
Fixpoint reduce_loop (bits threshold : Z) (dither : Z -> Z -> Z) (i sum lastFrame : Z) (frames : list Z) : res (list Z) :=
  match frames with
  | [] => Ok []
  | frame :: frames =>
    let sum := sum - lastFrame + frame in
    let* v := reduce_frame bits threshold frame (dither i sum) in
    let* vs := reduce_loop bits threshold dither (i + 1) sum frame frames in
    Ok (v :: vs)
  end.

(** [BKDataConvert], lines 778-819, on the frames: [targetNumBits] is unsigned, at most 15 are used. *)
Definition BKDataConvert (targetNumBits threshold : Z) (dither : Z -> Z -> Z) (frames : list Z) : res (list Z) :=
  reduce_loop (if targetNumBits >? 15 then 15 else targetNumBits) threshold dither 0 0 0 frames.
