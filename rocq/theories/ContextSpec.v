(** Vocabulary of the statements about contexts. *)
From Verif Require Import CInt TimeModel Kernels BufferModel BufferSpec DataModel UnitModel TrackModel ContextModel.

(** Calls on an attached track which set attributes, pointers, data and instruments. *)
Definition sets (o : top) : bool :=
  match o with
  | OAttr _ _ | OPtr _ _ _ | OData _ | OInstrSet _ _ _ _ | OInstrDispose | OClear => true
  | _ => false
  end.

(** Callbacks of clocks and dividers only make such calls; times are 64-bit numbers. *)
Definition env_ok (e : env) : Prop := forall id n t,
  Forall (fun c => sets (snd c) = true) (e_calls e id n t) /\ e_next e id n t <= BK_TIME_MAX.

(** A track which is not attached, with a period and a position in its sample as the functions
    of a track leave them. *)
Definition track_free (t : track) : Prop :=
  un_ctx (tr_unit t) = None /\ 0 <= un_period (tr_unit t) < 2147483648 /\ 0 <= sm_timeFrac (un_sample (tr_unit t)) < 1048576.

(** Programs which attach clocks before they generate, generate while at least one track is
    attached, and only use [BKContextGenerate] to get frames.  [started] tells if frames have been
    generated since the last reset, [ids] are the attached tracks. *)
Fixpoint legal (started : bool) (ids : list Z) (ops : list xop) : Prop :=
  match ops with
  | [] => True
  | o :: ops =>
    match o with
    | XAttachClock id period => started = false /\ id <> 0 /\ 0 < period /\ legal started ids ops
    | XAttachTrack id t => track_free t /\ legal started (ids ++ [id]) ops
    | XDetachTrack id => legal started (filter (fun i => negb (i =? id)) ids) ops
    | XTrack _ o => sets o = true /\ legal started ids ops
    | XPeriod _ => legal started ids ops
    | XKernel k => match k with Some k => kernel_ok k | None => True end /\ legal started ids ops
    | XGenerate _ => ids <> [] /\ legal true ids ops
    | XReset => legal false ids ops
    | XEnd _ | XRead _ | XGenerateTo _ _ => False
    end
  end.

(** The tracks attached after a program. *)
Fixpoint attached (ids : list Z) (ops : list xop) : list Z :=
  match ops with
  | [] => ids
  | XAttachTrack id _ :: ops => attached (ids ++ [id]) ops
  | XDetachTrack id :: ops => attached (filter (fun i => negb (i =? id)) ids) ops
  | _ :: ops => attached ids ops
  end.

(** ** Termination *)

(** Programs in any order of calls, except that no clock is attached after the clocks have
    started (the master clock is attached with the first track).  [any] tells if there is a clock,
    [master] if the master clock is attached and [started] if the clocks run. *)
Fixpoint clocked (any master started : bool) (ops : list xop) : Prop :=
  match ops with
  | [] => True
  | o :: ops =>
    match o with
    | XAttachClock id period => started = false /\ id <> 0 /\ 0 < period /\ clocked true master started ops
    | XAttachTrack _ t => un_ctx (tr_unit t) = None /\ (started = true -> master = true) /\ clocked true true started ops
    | XKernel k => match k with Some k => kernel_ok k | None => True end /\ clocked any master started ops
    | XGenerate _ | XEnd _ => clocked any master (started || any) ops
    | XGenerateTo _ time => time <= BK_TIME_MAX /\ clocked any master (started || any) ops
    | XReset => clocked any master false ops
    | XDetachTrack _ | XTrack _ _ | XPeriod _ | XRead _ => clocked any master started ops
    end
  end.

(** At least one clock is attached by a program. *)
Definition has_clock (ops : list xop) : bool :=
  existsb (fun o => match o with XAttachClock _ _ | XAttachTrack _ _ => true | _ => false end) ops.

(** The states a context passes through while it generates. *)
Inductive passes (e : env) (fuel : nat) : context -> context -> Prop :=
| passes_here c : passes e fuel c c
| passes_advance c c1 c2 q : passes e fuel c c1 -> BKClocksAdvance e fuel c1 = Ok (c2, q) -> passes e fuel c c2
| passes_run c c1 c2 time : passes e fuel c c1 -> run_units fuel c1 time = Ok c2 -> passes e fuel c c2
| passes_end c c1 c2 n time : passes e fuel c c1 -> BKContextEnd n e fuel c1 time = Ok c2 -> passes e fuel c c2
| passes_read c c1 c2 k l size : passes e fuel c c1 -> BKContextRead c1 size = Ok (c2, k, l) -> passes e fuel c c2.

(** What goes wrong is not the work of the loops of a context: a value is too large, or a call to a
    clock, a track or its unit goes wrong. *)
Definition blamed (e : env) (fuel : nat) (c : context) (x : err) : Prop :=
  x = EOverflow \/ exists c1, passes e fuel c c1 /\
    (BKClocksAdvance e fuel c1 = Err x \/ exists time, run_units fuel c1 time = Err x).
