(** Vocabulary of the statements about several sources which are mixed into a channel. *)
From Verif Require Import CInt BufferSpec.

(** A round of use of a buffer (see [round]) whose pulses are labelled with their source: (source,
    (time, height)). *)
Record sround := mk_sround { sr_pulses : list (Z * (Z * Z)); sr_end : Z; sr_read : Z }.
Definition plain (r : sround) : round := mk_round (map snd (sr_pulses r)) (sr_end r) (sr_read r).

(** All pulses of a history at absolute times, and those of one source. *)
Fixpoint labelled (now : Z) (rs : list sround) : list (Z * (Z * Z)) :=
  match rs with
  | [] => []
  | r :: rs => map (fun x => (fst x, (now + fst (snd x), snd (snd x)))) (sr_pulses r) ++ labelled (now + sr_end r) rs
  end.
Definition from (s : Z) (l : list (Z * (Z * Z))) : list (Z * Z) := map snd (filter (fun x => fst x =? s) l).

(** The pulses come in the order of their times, and the level they add up to stays between [lo] and [hi]. *)
Fixpoint levels (lo hi time level : Z) (l : list (Z * Z)) : Prop :=
  match l with
  | [] => True
  | (t, p) :: l => time <= t /\ lo <= level + p <= hi /\ levels lo hi t (level + p) l
  end.

(** Histories in which the sources [srcs] stay between the levels [lo] and [hi]. *)
Definition sources_ok (srcs : list Z) (lo hi : Z -> Z) (rs : list sround) : Prop :=
  NoDup srcs /\ (forall s, In s srcs -> lo s <= 0 <= hi s) /\
  (forall x, In x (labelled 0 rs) -> In (fst x) srcs) /\
  (forall s, In s srcs -> levels (lo s) (hi s) 0 0 (from s (labelled 0 rs))).

(** How far the levels of all sources together are apart. *)
Definition swing (srcs : list Z) (lo hi : Z -> Z) : Z := zsum (map (fun s => hi s - lo s) srcs).
