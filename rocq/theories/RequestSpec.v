(** Vocabulary of C106: what a program does, whatever the sizes in which it asks for frames. *)
From Verif Require Import CInt ContextModel ContextSpec.

(** A program as a list of calls and single frames ([None]). *)
Fixpoint script (ops : list xop) : list (option xop) :=
  match ops with
  | [] => []
  | XGenerate size :: ops => repeat None (Z.to_nat (u32 size)) ++ script ops
  | o :: ops => Some o :: script ops
  end.

(** All frames of a channel. *)
Definition heard (k : nat) (ls : list (list (list Z))) : list Z := concat (map (fun l => nth k l []) ls).
