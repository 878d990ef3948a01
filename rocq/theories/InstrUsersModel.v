(** Instruments and the tracks which use them: memory of instruments, tracks and sequences and
    the pointers between them (BKInstrument.c, BKTrack.c).

    Values of sequences and everything a track plays are left out (SequenceModel.v, TrackModel.v).
    Pointers are numbers, 0 is NULL.  Every access of an instrument or a track checks that its
    memory is in use, every call through a sequence checks that the sequence is not released.
    The flag [BKObjectFlagLocked] is never set for instruments.  [BKInstrumentStateSetPhase]
    returns early when a phase is released twice (lines 344-345); the model reads the sequences in
    that case too.  The callback for [BK_INSTR_STATE_EVENT_MUTE] sets the note to [BK_NOTE_MUTE]
    (BKTrack.c lines 56-59), which calls through the same sequences again. *)
From Verif Require Import CInt.

(** [BKInstrument], BKInstrument.h lines 64-70, and the part of [BKTrack] with its
    [BKInstrumentState], BKInstrument.h lines 51-62; [it_flag] is [BKInstrumentFlag]. *)
Record iinstr : Type := mk_iinstr { ii_alive : bool; ii_list : Z; ii_num : Z; ii_seqs : list Z }.
Record itrack : Type := mk_itrack { it_alive : bool; it_flag : bool; it_instr : Z; it_prev : Z; it_next : Z; it_seqs : list Z }.
Record iheap : Type := mk_iheap { ih_instr : Z -> iinstr; ih_track : Z -> itrack; ih_live : Z -> bool; ih_fresh : Z }.

Definition fset {A} (f : Z -> A) (p : Z) (a : A) : Z -> A := fun q => if q =? p then a else f q.
Definition set_instr (h : iheap) (i : Z) (x : iinstr) : iheap := mk_iheap (fset (ih_instr h) i x) (ih_track h) (ih_live h) (ih_fresh h).
Definition set_track (h : iheap) (t : Z) (x : itrack) : iheap := mk_iheap (ih_instr h) (fset (ih_track h) t x) (ih_live h) (ih_fresh h).
Definition set_live (h : iheap) (p : Z) (b : bool) : iheap := mk_iheap (ih_instr h) (ih_track h) (fset (ih_live h) p b) (ih_fresh h).

Definition instr_of (h : iheap) (i : Z) : res iinstr :=
  if i =? 0 then Err ENull else if ii_alive (ih_instr h i) then Ok (ih_instr h i) else Err EFreed.
Definition track_of (h : iheap) (t : Z) : res itrack :=
  if t =? 0 then Err ENull else if it_alive (ih_track h t) then Ok (ih_track h t) else Err EFreed.

Definition with_list (x : iinstr) (l : Z) := mk_iinstr (ii_alive x) l (ii_num x) (ii_seqs x).
Definition with_links (x : itrack) (i p n : Z) := mk_itrack (it_alive x) (it_flag x) i p n (it_seqs x).
Definition with_seqs (x : itrack) (l : list Z) := mk_itrack (it_alive x) (it_flag x) (it_instr x) (it_prev x) (it_next x) l.
Definition with_flag (x : itrack) (b : bool) := mk_itrack (it_alive x) b (it_instr x) (it_prev x) (it_next x) (it_seqs x).

(** A call through [sequence -> funcs], BKSequence.c lines 459-481. *)
Definition touch (h : iheap) (p : Z) : res unit := if p =? 0 then Ok tt else if ih_live h p then Ok tt else Err EFreed.
Fixpoint touch_all (h : iheap) (l : list Z) : res unit :=
  match l with [] => Ok tt | p :: l => let* _ := touch h p in touch_all h l end.

(** [BKInstrumentStateSetDefaultValues], BKInstrument.c lines 44-58. *)
Definition state_defaults (h : iheap) (s : Z) : res unit :=
  let* st := track_of h s in touch_all h (it_seqs st).

(** [BKInstrumentStateSetPhase], lines 334-393: only slots which the instrument has set. *)
Fixpoint touch_set (h : iheap) (n : nat) (ls l : list Z) : res unit :=
  match n, ls, l with
  | S n, a :: ls, p :: l => let* _ := (if a =? 0 then Ok tt else touch h p) in touch_set h n ls l
  | _, _, _ => Ok tt
  end.
Definition state_phase (h : iheap) (s : Z) : res unit :=
  let* st := track_of h s in
  if it_instr st =? 0 then Ok tt else
  let* ins := instr_of h (it_instr st) in
  touch_set h (Z.to_nat (ii_num ins)) (ii_seqs ins) (it_seqs st).

(** [BKInstrumentStateTick], lines 319-332: [state -> instrument] is not checked. *)
Definition state_tick (h : iheap) (s : Z) : res unit :=
  let* st := track_of h s in
  let* ins := instr_of h (it_instr st) in
  touch_all h (firstn (Z.to_nat (ii_num ins)) (it_seqs st)).

(** [BKInstrumentStateRemoveFromInstrument], lines 251-270. *)
Definition BKInstrumentStateRemoveFromInstrument (h : iheap) (s : Z) : res iheap :=
  let* st := track_of h s in
  let i := it_instr st in
  if i =? 0 then Ok h else
  let* _ := instr_of h i in
  let* h := (if it_prev st =? 0 then Ok h else
    let* p := track_of h (it_prev st) in
    Ok (set_track h (it_prev st) (with_links p (it_instr p) (it_prev p) (it_next st)))) in
  let* st := track_of h s in
  let* h := (if it_next st =? 0 then Ok h else
    let* n := track_of h (it_next st) in
    Ok (set_track h (it_next st) (with_links n (it_instr n) (it_prev st) (it_next n)))) in
  let* ins := instr_of h i in
  let* st := track_of h s in
  let h := if ii_list ins =? s then set_instr h i (with_list ins (it_next st)) else h in
  Ok (set_track h s (with_links st 0 0 0)).

(** [BKInstrumentStateAddToInstrument], lines 232-246. *)
Definition BKInstrumentStateAddToInstrument (h : iheap) (s i : Z) : res iheap :=
  let* st := track_of h s in
  if (it_instr st =? 0) && negb (i =? 0) then
    let* ins := instr_of h i in
    let h := set_track h s (with_links st i 0 (ii_list ins)) in
    let* h := (if ii_list ins =? 0 then Ok h else
      let* n := track_of h (ii_list ins) in
      Ok (set_track h (ii_list ins) (with_links n (it_instr n) s (it_next n)))) in
    let h := set_instr h i (with_list ins s) in
    let* _ := state_defaults h s in
    Ok h
  else Ok h.

(** [BKInstrumentStateSetInstrument], lines 281-299. *)
Definition BKInstrumentStateSetInstrument (h : iheap) (s i : Z) : res iheap :=
  let* h := BKInstrumentStateRemoveFromInstrument h s in
  let* h := BKInstrumentStateAddToInstrument h s i in
  let* st := track_of h s in
  if i =? 0 then Ok (set_track h s (with_seqs st [0; 0; 0; 0]))
  else
    let* ins := instr_of h (it_instr st) in
    let h := set_track h s (with_seqs st (ii_seqs ins)) in
    let* _ := state_defaults h s in
    let* _ := state_phase h s in
    Ok h.

(** [BKTrackSetInstrumentInitValues], BKTrack.c lines 557-563; [BK_SEQUENCE_DUTY_CYCLE] is 3. *)
Definition init_values (h : iheap) (t : Z) : res unit :=
  let* tr := track_of h t in
  if it_flag tr then
    let* ins := instr_of h (it_instr tr) in
    if nth 3 (ii_seqs ins) 0 =? 0 then Ok tt else touch h (nth 3 (it_seqs tr) 0)
  else Ok tt.

(** [BKTrackSetInstrument], BKTrack.c lines 647-674. *)
Definition BKTrackSetInstrument (h : iheap) (t i : Z) : res iheap :=
  let* tr := track_of h t in
  if i =? it_instr tr then Ok h else
  let* h := BKInstrumentStateSetInstrument h t i in
  let* tr := track_of h t in
  if i =? 0 then Ok (set_track h t (with_flag tr false))
  else
    let h := set_track h t (with_flag tr true) in
    let* _ := init_values h t in
    let* _ := state_phase h t in
    Ok h.

(** The part of [BKTrackSetNote] and of a tick of the track that concerns instruments, BKTrack.c
    lines 565-645 and 350-353. *)
Definition track_note (h : iheap) (t : Z) : res iheap :=
  let* tr := track_of h t in
  if it_flag tr then let* _ := init_values h t in let* _ := state_phase h t in Ok h else Ok h.
Definition track_tick (h : iheap) (t : Z) : res iheap :=
  let* tr := track_of h t in
  if it_flag tr then let* _ := state_tick h t in Ok h else Ok h.

(** [BKTrackClear], lines 459-498: the flags are cleared, [instrState] is cleared by [memset]. *)
Definition track_clear (h : iheap) (t : Z) : res iheap :=
  let* h := BKTrackSetInstrument h t 0 in
  let* tr := track_of h t in
  Ok (set_track h t (mk_itrack (it_alive tr) false 0 0 0 [0; 0; 0; 0])).

(** [BKTrackInit] in new memory, and [BKTrackDisposeObject], lines 502-508, after which the
    memory belongs to the client again. *)
Definition track_init (h : iheap) (t : Z) : iheap := set_track h t (mk_itrack true false 0 0 0 [0; 0; 0; 0]).
Definition track_dispose (h : iheap) (t : Z) : res iheap :=
  let* h := BKInstrumentStateSetInstrument h t 0 in
  let* tr := track_of h t in
  Ok (set_track h t (mk_itrack false (it_flag tr) (it_instr tr) (it_prev tr) (it_next tr) (it_seqs tr))).

(** [BKInstrumentResetStates] with [BK_INSTR_STATE_EVENT_DISPOSE], BKInstrument.c lines 63-76: the
    callback of a track is [BKTrackSetInstrument (track, NULL)] (BKTrack.c lines 47-50). *)
Fixpoint detach_states (fuel : nat) (h : iheap) (s : Z) : res iheap :=
  if s =? 0 then Ok h else
  match fuel with
  | O => Err EFuel
  | S fuel =>
    let* st := track_of h s in
    let* h := BKTrackSetInstrument h s 0 in
    let* h := BKInstrumentStateSetInstrument h s 0 in
    detach_states fuel h (it_next st)
  end.
Definition BKInstrumentDetach (fuel : nat) (h : iheap) (i : Z) : res iheap :=
  let* ins := instr_of h i in detach_states fuel h (ii_list ins).

(** [BKSequenceDispose], BKSequence.c lines 454-457. *)
Definition free_seq (h : iheap) (p : Z) : res iheap :=
  if p =? 0 then Ok h else if ih_live h p then Ok (set_live h p false) else Err EFreed.
Fixpoint free_seqs (h : iheap) (l : list Z) : res iheap :=
  match l with [] => Ok h | p :: l => let* h := free_seq h p in free_seqs h l end.

(** [BKInstrumentInit] in new memory, lines 78-85, and [BKInstrumentDisposeObject], lines 96-108. *)
Definition instr_init (h : iheap) (i : Z) : iheap := set_instr h i (mk_iinstr true 0 0 [0; 0; 0; 0]).
Definition instr_dispose (fuel : nat) (h : iheap) (i : Z) : res iheap :=
  let* h := BKInstrumentDetach fuel h i in
  let* ins := instr_of h i in
  let* h := free_seqs h (ii_seqs ins) in
  Ok (set_instr h i (mk_iinstr false (ii_list ins) (ii_num ins) (ii_seqs ins))).

(** The loops over all states, lines 163-164 and 190-193. *)
Fixpoint over_states (fuel : nat) (f : iheap -> Z -> res iheap) (h : iheap) (s : Z) : res iheap :=
  if s =? 0 then Ok h else
  match fuel with
  | O => Err EFuel
  | S fuel =>
    let* _ := track_of h s in
    let* h := f h s in
    let* st := track_of h s in
    over_states fuel f h (it_next st)
  end.

(** [BKInstrumentUpdateNumSequences], lines 147-157. *)
Fixpoint num_seqs (l : list Z) (i n : Z) : Z :=
  match l with [] => n | p :: l => num_seqs l (i + 1) (if p =? 0 then n else BKMax n (i + 1)) end.

(** What [BKSequenceCreate] gives: an error, or a new sequence; without values there is none. *)
Inductive created := CFail | CNone | CNew.

(** [BKInstrumentSetSequenceValues], lines 167-205; the callback for [BK_INSTR_STATE_EVENT_RESET]
    only looks at the track.  [BK_INVALID_ATTRIBUTE] and errors are -1. *)
Definition set_sequence (fuel : nat) (h : iheap) (i slot : Z) (new : created) : res (iheap * Z) :=
  if slot <? 4 then
    let* ins := instr_of h i in
    match new with
    | CFail => Ok (h, -1)
    | _ =>
      let p := match new with CNew => ih_fresh h | _ => 0 end in
      let h := match new with CNew => mk_iheap (ih_instr h) (ih_track h) (fset (ih_live h) p true) (p + 1) | _ => h end in
      let* h := free_seq h (nth (Z.to_nat slot) (ii_seqs ins) 0) in
      let h := set_instr h i (mk_iinstr (ii_alive ins) (ii_list ins) (ii_num ins) (upd (ii_seqs ins) (Z.to_nat slot) p)) in
      let* h := over_states fuel (fun h s => let* st := track_of h s in Ok (set_track h s (with_seqs st (upd (it_seqs st) (Z.to_nat slot) p)))) h (ii_list ins) in
      let* ins := instr_of h i in
      let h := set_instr h i (mk_iinstr (ii_alive ins) (ii_list ins) (num_seqs (ii_seqs ins) 0 0) (ii_seqs ins)) in
      let* h := over_states fuel (fun h s => let* _ := state_defaults h s in let* _ := state_phase h s in Ok h) h (ii_list ins) in
      let* h := over_states fuel (fun h s => let* _ := track_of h s in Ok h) h (ii_list ins) in
      Ok (h, 0)
    end
  else Ok (h, -1).

(** What a client can do. *)
Inductive iop :=
| TInit (t : Z) | TDispose (t : Z) | TSet (t i : Z) | TNote (t : Z) | TTick (t : Z) | TClear (t : Z)
| IInit (i : Z) | IDispose (i : Z) | IDetach (i : Z) | ISequence (i slot : Z) (new : created).

Definition istep (fuel : nat) (h : iheap) (o : iop) : res iheap :=
  match o with
  | TInit t => Ok (track_init h t)
  | TDispose t => track_dispose h t
  | TSet t i => BKTrackSetInstrument h t i
  | TNote t => track_note h t
  | TTick t => track_tick h t
  | TClear t => track_clear h t
  | IInit i => Ok (instr_init h i)
  | IDispose i => instr_dispose fuel h i
  | IDetach i => BKInstrumentDetach fuel h i
  | ISequence i slot new => let* (h, _) := set_sequence fuel h i slot new in Ok h
  end.
Fixpoint iruns (fuel : nat) (h : iheap) (ops : list iop) : res iheap :=
  match ops with [] => Ok h | o :: ops => let* h := istep fuel h o in iruns fuel h ops end.

(** Nothing is initialised yet. *)
Definition iheap_init : iheap :=
  mk_iheap (fun _ => mk_iinstr false 0 0 []) (fun _ => mk_itrack false false 0 0 0 []) (fun _ => false) 1.
