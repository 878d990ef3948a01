(** Vocabulary of C104 and C105: tracks, instruments and which track uses which instrument. *)
From Verif Require Import CInt InstrUsersModel.

(** The tracks and instruments in use, and the tracks using an instrument, the latest first. *)
Record world : Type := mk_world { w_tracks : list Z; w_instrs : list Z; w_users : Z -> list Z }.
Definition world_init : world := mk_world [] [] (fun _ => []).

Definition without (t : Z) (l : list Z) : list Z := filter (fun x => negb (x =? t)) l.
Definition leaves (t : Z) (u : Z -> list Z) : Z -> list Z := fun i => without t (u i).
Definition joins (t i : Z) (u : Z -> list Z) : Z -> list Z :=
  fun j => if (j =? i) && negb (i =? 0) then t :: leaves t u j else leaves t u j.
Definition uses (t i : Z) (u : Z -> list Z) : bool := existsb (Z.eqb t) (u i).

Definition wstep (w : world) (o : iop) : world :=
  match o with
  | TInit t => mk_world (t :: w_tracks w) (w_instrs w) (w_users w)
  | TDispose t => mk_world (without t (w_tracks w)) (w_instrs w) (leaves t (w_users w))
  | TSet t i => if uses t i (w_users w) then w else mk_world (w_tracks w) (w_instrs w) (joins t i (w_users w))
  | TClear t => mk_world (w_tracks w) (w_instrs w) (leaves t (w_users w))
  | IInit i => mk_world (w_tracks w) (i :: w_instrs w) (w_users w)
  | IDispose i => mk_world (w_tracks w) (without i (w_instrs w)) (fun j => if j =? i then [] else w_users w j)
  | IDetach i => mk_world (w_tracks w) (w_instrs w) (fun j => if j =? i then [] else w_users w j)
  | TNote _ | TTick _ | ISequence _ _ _ => w
  end.
Definition world_after (w : world) (ops : list iop) : world := fold_left wstep ops w.

(** Calls on objects which are in use; new objects are in memory which is not. *)
Definition iallowed (w : world) (o : iop) : Prop :=
  match o with
  | TInit t => t <> 0 /\ ~ In t (w_tracks w)
  | TDispose t | TNote t | TTick t | TClear t => In t (w_tracks w)
  | TSet t i => In t (w_tracks w) /\ (i = 0 \/ In i (w_instrs w))
  | IInit i => i <> 0 /\ ~ In i (w_instrs w)
  | IDispose i | IDetach i => In i (w_instrs w)
  | ISequence i slot _ => In i (w_instrs w) /\ 0 <= slot
  end.
Fixpoint iallowed_all (w : world) (ops : list iop) : Prop :=
  match ops with [] => True | o :: ops => iallowed w o /\ iallowed_all (wstep w o) ops end.

(** The tracks of an instrument as its list gives them, forwards; and the links back. *)
Fixpoint listed (fuel : nat) (h : iheap) (p : Z) : list Z :=
  match fuel with O => [] | S fuel => if p =? 0 then [] else p :: listed fuel h (it_next (ih_track h p)) end.
Fixpoint linked_back (h : iheap) (prev : Z) (l : list Z) : Prop :=
  match l with [] => True | t :: l => it_prev (ih_track h t) = prev /\ linked_back h t l end.

(** What setting a sequence does to the slots: nothing if creating it fails or there is no such
    slot; otherwise the slot holds a new sequence, or none. *)
Definition stored (h : iheap) (i slot : Z) (new : created) (h' : iheap) (r : Z) : Prop :=
  match new, slot <? 4 with
  | CFail, _ | _, false => r = -1 /\ h' = h
  | _, true =>
    r = 0 /\
    (exists p, ii_seqs (ih_instr h' i) = upd (ii_seqs (ih_instr h i)) (Z.to_nat slot) p /\
       match new with CNew => p <> 0 /\ ih_live h p = false | _ => p = 0 end) /\
    forall j, j <> i -> ih_instr h' j = ih_instr h j
  end.
