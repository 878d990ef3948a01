(** Specification of clock and divider ticks: tick times of single clocks. *)
From Verif Require Import CInt TimeModel ClockModel.

(** Time of the [k]-th tick of clock [c] started with period [p], and its
    period after [k] ticks, when it is alone.  A callback may move the next
    tick by leaving a later time in [info.nextTime]. *)
Fixpoint sched (o : oracle) (c p : Z) (k : nat) : Z * Z :=
  match k with
  | O => (0, p)
  | S k => let '(t, per) := sched o c p k in
           let nt := o_next o c (u32 (Z.of_nat k)) t in
           if nt >? t then (nt, nt - t) else (t + per, per)
  end.
Definition tick_time o c p k := fst (sched o c p k).

(** Events of one clock or divider in a trace. *)
Definition clock_trace (c : Z) (tr : list event) : list Z :=
  flat_map (fun e => match e with EvClock c' t => if c' =? c then [t] else [] | _ => [] end) tr.
Definition div_trace (d : Z) (tr : list event) : list Z :=
  flat_map (fun e => match e with EvDivider d' t => if d' =? d then [t] else [] | _ => [] end) tr.

(** Ticks of clock [c] are passed to the dividers of group [g]. *)
Definition drives (cb : Z -> clock_cb) (c : Z) (g : gid) : bool :=
  match g with
  | GClock c' => c' =? c
  | GBeat x | GEffect x => match cb c with CbMaster x' => x' =? x | _ => false end
  end.
Definition drive_times (cb : Z -> clock_cb) (g : gid) (tr : list event) : list Z :=
  flat_map (fun e => match e with EvClock c t => if drives cb c g then [t] else [] | _ => [] end) tr.

(** A divider ticked at the given times; times at which it fires. *)
Fixpoint div_iter (o : Z -> Z -> Z) (d : divider) (times : list Z) : res (divider * list Z) :=
  match times with
  | [] => Ok (d, [])
  | t :: times =>
    let* (d, fired) := divider_tick (o t) d in
    let* (d, l) := div_iter o d times in
    Ok (d, if fired then t :: l else l)
  end.

(** Number of the tick on which a divider with value [n], ticked at times [t 0],
    [t 1], ..., fires for the [j]-th time, and its value before that; a callback
    returns the next distance, which is at least 1. *)
Fixpoint firing (o : Z -> Z -> Z) (t : nat -> Z) (n : Z) (j : nat) : nat * Z :=
  match j with
  | O => (O, n)
  | S j => let '(i, v) := firing o t n j in
           let v' := Z.max 1 (o (t i) v) in ((i + Z.to_nat v')%nat, v')
  end.

(** Calls of [BKContextEnd] with the given lengths. *)
Fixpoint run_ends (n fuel : nat) (o : oracle) (h : heap) (tr : list event) (x : Z) (ends : list Z) : res (heap * list event) :=
  match ends with
  | [] => Ok (h, tr)
  | e :: ends => let* (h, tr) := BKContextEnd n fuel o h tr x e in run_ends n fuel o h tr x ends
  end.
