(** Specification of sequences: order of visited values, histories of calls. *)
From Verif Require Import CInt SequenceModel.

(** Index of the [i]-th value visited after the attack: the values up to the end
    of the sustain part, then the sustain part again and again.  An empty sustain
    part stands for its first value. *)
Definition attack_index (so sl i : nat) : nat :=
  if (i <? so + sl)%nat then i else (so + (i - so) mod (Nat.max 1 sl))%nat.
(** Index of the [i]-th value visited after the release. *)
Definition release_index (so sl i : nat) : nat := (so + sl + i)%nat.

(** Calls on one sequence state. *)
Inductive sop : Type := SPhase (phase : Z) | SStep (level : Z) | SValue (value : Z).

Definition sstep (fuel : nat) (sq : sequence) (st : sstate) (o : sop) : res (sstate * Z) :=
  match o with
  | SPhase p => BKSequenceStateSetPhase fuel (Some sq) st p
  | SStep l => BKSequenceStateStep fuel (Some sq) st l
  | SValue v => let* st := BKSequenceStateSetValue (Some sq) st v in Ok (st, 0)
  end.

(** Results of a history of calls: value and return code after each of them. *)
Fixpoint srun (fuel : nat) (sq : sequence) (st : sstate) (ops : list sop) : res (sstate * list (Z * Z)) :=
  match ops with
  | [] => Ok (st, [])
  | o :: ops =>
    let* (st, r) := sstep fuel sq st o in
    let* (st', l) := srun fuel sq st ops in
    Ok (st', (st_value st, r) :: l)
  end.

(** What a value sequence shows after the [k]-th step ([k] from 0) when the
    values with indices [idx 0], [idx 1], ... are visited: the value and the code;
    [before] is shown if nothing was visited. *)
Definition visited (vals : list Z) (idx : nat -> nat) (before : Z) (k : nat) : Z :=
  match nth_error vals (idx k) with
  | Some v => v
  | None => last vals before
  end.

(** Time at which the [i]-th visited phase of an envelope begins. *)
Definition phase_at (phases : list sphase) (idx : nat -> nat) (i : nat) : option sphase := nth_error phases (idx i).
Definition steps_at (phases : list sphase) (idx : nat -> nat) (i : nat) : Z :=
  match phase_at phases idx i with Some p => ph_steps p | None => 0 end.
Fixpoint begin_at (phases : list sphase) (idx : nat -> nat) (i : nat) : Z :=
  match i with
  | O => 0
  | S i => begin_at phases idx i + steps_at phases idx i
  end.
(** Value from which the [i]-th visited phase begins. *)
Definition start_value (phases : list sphase) (idx : nat -> nat) (w : Z) (i : nat) : Z :=
  match i with
  | O => w
  | S i => match phase_at phases idx i with Some p => ph_value p | None => w end
  end.
Definition target_value (phases : list sphase) (idx : nat -> nat) (i : nat) : Z :=
  match phase_at phases idx i with Some p => ph_value p | None => 0 end.

Definition between (a x b : Z) : Prop := Z.min a b <= x <= Z.max a b.

(** ** Instruments *)

(** A sequence state reports its end with the largest offset. *)
Definition doneb (st : sstate) : bool := st_offset st =? BK_INT_MAX.
Definition done (st : sstate) : Prop := st_offset st = BK_INT_MAX.

(** One slot played on its own; slots without sequence stay as they are. *)
Definition tick_slot (fuel : nat) (level : Z) (x : option sequence * sstate) : sstate :=
  match fst x with
  | None => snd x
  | Some _ => match BKSequenceStateStep fuel (fst x) (snd x) level with Ok (st, _) => st | Err _ => snd x end
  end.
Definition phase_slot (fuel : nat) (p : Z) (x : option sequence * sstate) : sstate :=
  match fst x with
  | None => snd x
  | Some _ => match BKSequenceStateSetPhase fuel (fst x) (snd x) p with Ok (st, _) => st | Err _ => snd x end
  end.
Definition phased (fuel : nat) (sqs : list (option sequence)) (p : Z) (sts : list sstate) : list sstate := map (phase_slot fuel p) (combine sqs sts).
Definition ticked (fuel : nat) (sqs : list (option sequence)) (level : Z) (sts : list sstate) : list sstate := map (tick_slot fuel level) (combine sqs sts).
Definition played (fuel : nat) (sqs : list (option sequence)) (levels : list Z) (sts : list sstate) : list sstate :=
  fold_left (fun sts level => ticked fuel sqs level sts) levels sts.

(** Number of sequences which have not ended. *)
Fixpoint unfinished (sqs : list (option sequence)) (sts : list sstate) : Z :=
  match sqs, sts with
  | sq :: sqs, st :: sts => (match sq with Some _ => if doneb st then 0 else 1 | None => 0 end) + unfinished sqs sts
  | _, _ => 0
  end.

(** Calls on an instrument state. *)
Inductive iop : Type := IPhase (phase : Z) | ITick (level : Z).
Definition istep (fuel : nat) (instr : instrument) (s : istate) (o : iop) : res istate :=
  match o with
  | IPhase p => BKInstrumentStateSetPhase fuel instr s p
  | ITick l => BKInstrumentStateTick fuel instr s l
  end.
Fixpoint irun (fuel : nat) (instr : instrument) (s : istate) (ops : list iop) : res istate :=
  match ops with
  | [] => Ok s
  | o :: ops => let* s := istep fuel instr s o in irun fuel instr s ops
  end.
