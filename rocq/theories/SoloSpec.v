(** Vocabulary of the statements about some of the tracks of a program (C102, C103). *)
From Verif Require Import CInt TrackModel ContextModel.

(** Calls on tracks other than [keep] are left out. *)
Definition concerns (keep : Z -> bool) (o : xop) : bool :=
  match o with
  | XAttachTrack id _ | XDetachTrack id | XTrack id _ => keep id
  | _ => true
  end.
Definition only (keep : Z -> bool) (ops : list xop) : list xop := filter (concerns keep) ops.

(** The same for the calls which callbacks make. *)
Definition only_env (keep : Z -> bool) (e : env) : env :=
  mk_env (e_next e) (fun id n t => filter (fun c => keep (fst c)) (e_calls e id n t)).

(** The tracks [keep]. *)
Definition part (keep : Z -> bool) (ts : list (Z * track)) : list (Z * track) := filter (fun it => keep (fst it)) ts.

(** All frames of a program, by channel. *)
Definition audio (ls : list (list (list Z))) : list (list Z) := fold_right join [] ls.

(** Three lists, element by element. *)
Inductive Forall3 {A B C} (P : A -> B -> C -> Prop) : list A -> list B -> list C -> Prop :=
| Forall3_nil : Forall3 P [] [] []
| Forall3_cons a b c la lb lc : P a b c -> Forall3 P la lb lc -> Forall3 P (a :: la) (b :: lb) (c :: lc).

(** A sample which is not limited, and a sample which is the sum of two others but for rounding. *)
Definition unlimited (s : Z) : Prop := -32767 < s < 32766.
Definition sums (s s1 s2 : Z) : Prop := unlimited s -> unlimited s1 -> unlimited s2 -> -1 <= s - (s1 + s2) <= 2.
