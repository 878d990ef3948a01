(** Specification vocabulary for channel buffers, independent of the model. *)
From Verif Require Import CInt.

(** Frame [i] of a list of frames. *)
Definition cell (F : list Z) (i : Z) : Z := nth (Z.to_nat i) F 0.

(** A pulse of height [p] at time [T] (in 2^-20 frames, unbounded) adds the
    kernel row selected by the upper 5 bits of the fraction, scaled by [p], to
    the 32 frames beginning with the frame that contains [T].  This is what it
    adds to frame [i]. *)
Definition pulse_at (K : list (list Z)) (T p i : Z) : Z :=
  let o := T / 1048576 in
  let row := nth (Z.to_nat (T mod 1048576 / 32768)) K [] in
  if (o <=? i) && (i <? o + 32) then cell row (i - o) * p else 0.

(** Sum of a list. *)
Definition zsum (l : list Z) : Z := fold_right Z.add 0 l.

(** Sum of several pulses (time, height) at frame [i]. *)
Definition pulses_at (K : list (list Z)) (l : list (Z * Z)) (i : Z) : Z :=
  zsum (map (fun tp => pulse_at K (fst tp) (snd tp) i) l).

(** Upper bound of what a list of pulses can contribute in any order. *)
Definition pulses_abs (K : list (list Z)) (l : list (Z * Z)) (i : Z) : Z :=
  zsum (map (fun tp => Z.abs (pulse_at K (fst tp) (snd tp) i)) l).

(** One-pole high pass on the differentiated signal: accumulators after each input. *)
Fixpoint integrate (a : Z) (d : list Z) : list Z :=
  match d with
  | [] => []
  | x :: d => let a' := a - a / 512 + x in a' :: integrate a' d
  end.

(** Final accumulator. *)
Definition integrate_end (a : Z) (d : list Z) : Z := last (integrate a d) a.

(** Range of [int16_t]. *)
Definition is_s16 (z : Z) : Prop := -32768 <= z <= 32767.
Definition is_s32 (z : Z) : Prop := -2147483648 <= z <= 2147483647.

(** A pulse kernel has 32 rows of 32 16-bit values. *)
Definition kernel_ok (K : list (list Z)) : Prop :=
  length K = 32%nat /\
  forall row, In row K -> length row = 32%nat /\ forall v, In v row -> is_s16 v.

(** Conversion of a filtered amplitude (16.14 fixed point) to a sample:
    two levels of saturation. *)
Definition saturate (acc : Z) : Z :=
  let amp := acc / 16384 in
  if amp >? 65535 then 32766
  else if amp >? 32767 then 32767
  else if amp <? -65536 then -32767
  else if amp <? -32768 then -32768
  else amp.

(** [zseq a n] is [a, a+1, ..., a+n-1]. *)
Fixpoint zseq (a : Z) (n : nat) : list Z :=
  match n with
  | O => []
  | S n => a :: zseq (a + 1) n
  end.

(** One round of use of a buffer: pulses at local times, end of the mixed
    range, number of frames read afterwards. *)
Record round := mk_round { r_pulses : list (Z * Z); r_end : Z; r_read : Z }.

(** Admissible histories: [now] is the time in 2^-20 frames since the start,
    [rd] the number of frames already read. *)
Fixpoint rounds_ok (now rd : Z) (rs : list round) : Prop :=
  match rs with
  | [] => True
  | r :: rs =>
      0 <= r_end r /\
      (forall t p, In (t, p) (r_pulses r) -> 0 <= t <= r_end r /\ is_s16 p) /\
      now + r_end r - rd * 1048576 < 4294967296 /\
      0 <= r_read r <= (now + r_end r) / 1048576 - rd /\
      rounds_ok (now + r_end r) (rd + r_read r) rs
  end.

(** All pulses of a history at absolute times. *)
Fixpoint rounds_pulses (now : Z) (rs : list round) : list (Z * Z) :=
  match rs with
  | [] => []
  | r :: rs => map (fun tp => (now + fst tp, snd tp)) (r_pulses r)
               ++ rounds_pulses (now + r_end r) rs
  end.

(** Total number of frames read. *)
Definition rounds_read (rs : list round) : Z := zsum (map r_read rs).

(** Histories whose mixed ranges are whole numbers of frames. *)
Definition whole_frames (rs : list round) : Prop :=
  Forall (fun r => r_end r mod 1048576 = 0) rs.

(** The audio of a history: all pulses added up at their absolute times,
    integrated by the high pass filter, saturated. *)
Definition stream_spec (K : list (list Z)) (rs : list round) : list Z :=
  map saturate (integrate 0 (map (pulses_at K (rounds_pulses 0 rs))
                                 (zseq 0 (Z.to_nat (rounds_read rs))))).
