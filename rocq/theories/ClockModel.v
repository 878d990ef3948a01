(** Model of /repo/src/BKClock.h, BKClock.c and of the clock and unit lists of
    BKContext.c and BKUnit.c, over a heap of linked structures.

    Pointers are [Z]; 0 is [NULL], -1 is [BK_FIRST_ELEMENT_PTR] (BKBase.h line 127).
    Reading through [NULL] is [Err ENull].  Walks along [next] pointers carry
    fuel.  The 64-bit variant of [BKTime] is used.

    Callbacks are oracles.  A clock callback is described by the value it
    leaves in [info.nextTime], a divider callback by the value it leaves in
    [info.divider] (and [info.nextTime]).  Callbacks that attach, detach, reset
    or dispose objects are not modelled. *)
From Verif Require Import CInt TimeModel.

Notation ptr := Z (only parsing).
Definition NULL : ptr := 0.
Definition BK_FIRST_ELEMENT_PTR : ptr := -1.

(** Addresses of the three places where a [BKDividerGroup] is embedded:
    [BKClock.dividers], [BKContext.beatDividers] and [BKContext.effectDividers]. *)
Inductive gid := GClock (c : ptr) | GBeat (ctx : ptr) | GEffect (ctx : ptr).
Definition gid_eqb (a b : gid) : bool :=
  match a, b with
  | GClock x, GClock y | GBeat x, GBeat y | GEffect x, GEffect y => x =? y
  | _, _ => false
  end.

(** [clock -> callback]: none, [BKContextTick] of a context (set by
    BKContext.c lines 49-52), or a user function. *)
Inductive clock_cb := CbNone | CbMaster (ctx : ptr) | CbUser.

(** [BKClock], BKClock.h lines 60-72 (object header and [dividers] elsewhere). *)
Record clock := mk_clock {
  c_ctx : ptr; c_prev : ptr; c_next : ptr;
  c_period : Z; c_time : Z; c_nextTime : Z; c_counter : Z; c_cb : clock_cb }.

(** [BKDivider], BKClock.h lines 43-52; [d_cb] tells whether [callback.func] is set. *)
Record divider := mk_divider {
  d_group : option gid; d_prev : ptr; d_next : ptr; d_cb : bool; d_divider : Z; d_counter : Z }.

(** [BKDividerGroup], BKClock.h lines 54-58. *)
Record group := mk_group { g_first : ptr; g_last : ptr }.

(** List fields of [BKUnit] (BKUnit.h): [ctx], [prevUnit], [nextUnit], [time]. *)
Record unode := mk_unode { u_ctx : ptr; u_prev : ptr; u_next : ptr; u_time : Z }.

(** Fields of [BKContext] (BKContext.h lines 51-81) used by lists and clocks.
    [x_reset] is the flag [BK_CONTEXT_FLAG_CLOCK_RESET]. *)
Record cctx := mk_cctx {
  x_firstClock : ptr; x_lastClock : ptr; x_firstUnit : ptr; x_lastUnit : ptr;
  x_reset : bool; x_deltaTime : Z; x_currentTime : Z }.

(** Memory. *)
Record heap := mk_heap {
  h_clock : ptr -> clock; h_div : ptr -> divider; h_group : gid -> group;
  h_unit : ptr -> unode; h_ctx : ptr -> cctx }.

Definition pupd {A} (f : ptr -> A) (p : ptr) (a : A) : ptr -> A := fun q => if q =? p then a else f q.
Definition gupd (f : gid -> group) (g : gid) (a : group) : gid -> group :=
  fun q => if gid_eqb q g then a else f q.

Definition set_clock (h : heap) (p : ptr) (c : clock) : heap :=
  mk_heap (pupd (h_clock h) p c) (h_div h) (h_group h) (h_unit h) (h_ctx h).
Definition set_div (h : heap) (p : ptr) (d : divider) : heap :=
  mk_heap (h_clock h) (pupd (h_div h) p d) (h_group h) (h_unit h) (h_ctx h).
Definition set_group (h : heap) (g : gid) (v : group) : heap :=
  mk_heap (h_clock h) (h_div h) (gupd (h_group h) g v) (h_unit h) (h_ctx h).
Definition set_unit (h : heap) (p : ptr) (u : unode) : heap :=
  mk_heap (h_clock h) (h_div h) (h_group h) (pupd (h_unit h) p u) (h_ctx h).
Definition set_ctx (h : heap) (p : ptr) (x : cctx) : heap :=
  mk_heap (h_clock h) (h_div h) (h_group h) (h_unit h) (pupd (h_ctx h) p x).

(** Check before access through a pointer. *)
Definition nonnull (p : ptr) : res unit := if p =? NULL then Err ENull else Ok tt.

(** Single field writes. *)
Definition clk_set_links (c : clock) (ctx prev next : ptr) : clock :=
  mk_clock ctx prev next (c_period c) (c_time c) (c_nextTime c) (c_counter c) (c_cb c).
Definition clk_set_ctx (c : clock) (ctx : ptr) := clk_set_links c ctx (c_prev c) (c_next c).
Definition clk_set_prev (c : clock) (p : ptr) := clk_set_links c (c_ctx c) p (c_next c).
Definition clk_set_next (c : clock) (p : ptr) := clk_set_links c (c_ctx c) (c_prev c) p.
Definition div_set_prev (d : divider) (p : ptr) := mk_divider (d_group d) p (d_next d) (d_cb d) (d_divider d) (d_counter d).
Definition div_set_next (d : divider) (p : ptr) := mk_divider (d_group d) (d_prev d) p (d_cb d) (d_divider d) (d_counter d).
Definition div_set_group (d : divider) (g : option gid) := mk_divider g (d_prev d) (d_next d) (d_cb d) (d_divider d) (d_counter d).
Definition div_set_state (d : divider) (v n : Z) := mk_divider (d_group d) (d_prev d) (d_next d) (d_cb d) v n.
Definition ctx_set_clocks (x : cctx) (first last : ptr) : cctx :=
  mk_cctx first last (x_firstUnit x) (x_lastUnit x) (x_reset x) (x_deltaTime x) (x_currentTime x).
Definition ctx_set_units (x : cctx) (first last : ptr) : cctx :=
  mk_cctx (x_firstClock x) (x_lastClock x) first last (x_reset x) (x_deltaTime x) (x_currentTime x).
Definition ctx_set_reset (x : cctx) (b : bool) : cctx :=
  mk_cctx (x_firstClock x) (x_lastClock x) (x_firstUnit x) (x_lastUnit x) b (x_deltaTime x) (x_currentTime x).
Definition ctx_set_time (x : cctx) (delta current : Z) : cctx :=
  mk_cctx (x_firstClock x) (x_lastClock x) (x_firstUnit x) (x_lastUnit x) (x_reset x) delta current.

(** ** Initialisation *)

(** [BKClockInit]/[BKClockInitGeneric], BKClock.c lines 36-60, on zeroed memory. *)
Definition BKClockInit (h : heap) (p : ptr) (period : Z) (cb : clock_cb) : heap :=
  set_group (set_clock h p (mk_clock NULL NULL NULL period 0 0 0 cb)) (GClock p) (mk_group NULL NULL).

(** [BKDividerInit]/[BKDividerInitGeneric], BKClock.c lines 246-269.  [count]
    is unsigned; the maximum is taken unsigned and stored to a signed field. *)
Definition BKDividerInit (h : heap) (p : ptr) (count : Z) (cb : bool) : heap :=
  set_div h p (mk_divider None NULL NULL cb (s32 (BKMax 1 (u32 count))) 0).

(** ** Dividers *)

(** [BKDividerReset], BKClock.c lines 364-367. *)
Definition BKDividerReset (h : heap) (p : ptr) : heap :=
  let d := h_div h p in set_div h p (div_set_state d (d_divider d) 0).

(** [BKDividerAttachToGroup], BKClock.c lines 314-337. *)
Definition BKDividerAttachToGroup (h : heap) (p : ptr) (g : gid) : res (heap * Z) :=
  match d_group (h_div h p) with
  | Some _ => Ok (h, BK_INVALID_STATE)
  | None =>
    let last := g_last (h_group h g) in
    let h := set_div h p (div_set_next (div_set_prev (h_div h p) last) NULL) in
    let h :=
      if negb (last =? NULL)
      then set_div h last (div_set_next (h_div h last) p)
      else set_group h g (mk_group p (g_last (h_group h g))) in
    let h := set_group h g (mk_group (g_first (h_group h g)) p) in
    let h := set_div h p (div_set_group (h_div h p) (Some g)) in
    Ok (h, 0)
  end.

(** [BKDividerAttachToClock], BKClock.c lines 309-312. *)
Definition BKDividerAttachToClock (h : heap) (p c : ptr) := BKDividerAttachToGroup h p (GClock c).

(** [BKDividerDetach], BKClock.c lines 339-362.  [BKDividerDisposeObject]
    (lines 284-307) is the same code. *)
Definition BKDividerDetach (h : heap) (p : ptr) : heap :=
  match d_group (h_div h p) with
  | None => h
  | Some g =>
    let prev := d_prev (h_div h p) in
    let next := d_next (h_div h p) in
    let h :=
      if negb (prev =? NULL)
      then set_div h prev (div_set_next (h_div h prev) next)
      else set_group h g (mk_group next (g_last (h_group h g))) in
    let h :=
      if negb (next =? NULL)
      then set_div h next (div_set_prev (h_div h next) prev)
      else set_group h g (mk_group (g_first (h_group h g)) prev) in
    set_div h p (div_set_group (h_div h p) None)
  end.

(** ** Clocks *)

(** Loop of [BKClockReset], BKClock.c lines 173-174. *)
Fixpoint reset_dividers (fuel : nat) (h : heap) (p : ptr) : res heap :=
  if p =? NULL then Ok h else
  match fuel with
  | O => Err EFuel
  | S fuel => let h := BKDividerReset h p in reset_dividers fuel h (d_next (h_div h p))
  end.

(** [BKClockReset], BKClock.c lines 166-180.  The clock flag of line 176 is never read. *)
Definition BKClockReset (fuel : nat) (h : heap) (p : ptr) : res heap :=
  let ctx := c_ctx (h_clock h p) in
  let h := if negb (ctx =? NULL) then set_ctx h ctx (ctx_set_reset (h_ctx h ctx) true) else h in
  let* h := reset_dividers fuel h (g_first (h_group h (GClock p))) in
  let c := h_clock h p in
  Ok (set_clock h p (mk_clock (c_ctx c) (c_prev c) (c_next c) (c_period c) 0 0 0 (c_cb c))).

(** [BKClockAttach], BKClock.c lines 87-133. *)
Definition BKClockAttach (fuel : nat) (h : heap) (p ctx before : ptr) : res (heap * Z) :=
  if c_ctx (h_clock h p) =? NULL then
    let h := set_clock h p (clk_set_ctx (h_clock h p) ctx) in
    let* h := BKClockReset fuel h p in
    let* _ := nonnull ctx in
    let before := if before =? BK_FIRST_ELEMENT_PTR then x_firstClock (h_ctx h ctx) else before in
    if before =? NULL then
      let last := x_lastClock (h_ctx h ctx) in
      let h := set_clock h p (clk_set_next (clk_set_prev (h_clock h p) last) NULL) in
      let h :=
        if negb (last =? NULL)
        then let h := set_clock h last (clk_set_next (h_clock h last) p) in
             set_ctx h ctx (ctx_set_clocks (h_ctx h ctx) (x_firstClock (h_ctx h ctx)) p)
        else set_ctx h ctx (ctx_set_clocks (h_ctx h ctx) p p) in
      Ok (h, 0)
    else if c_ctx (h_clock h before) =? ctx then
      let h := set_clock h p (clk_set_next (clk_set_prev (h_clock h p) (c_prev (h_clock h before))) before) in
      let* h :=
        if before =? x_firstClock (h_ctx h ctx)
        then Ok (set_ctx h ctx (ctx_set_clocks (h_ctx h ctx) p (x_lastClock (h_ctx h ctx))))
        else let bp := c_prev (h_clock h before) in
             let* _ := nonnull bp in
             Ok (set_clock h bp (clk_set_next (h_clock h bp) p)) in
      let h := set_clock h before (clk_set_prev (h_clock h before) p) in
      Ok (h, 0)
    else Ok (h, BK_INVALID_VALUE)
  else Ok (h, BK_INVALID_STATE).

(** [BKClockDetach], BKClock.c lines 135-159. *)
Definition BKClockDetach (fuel : nat) (h : heap) (p : ptr) : res heap :=
  let ctx := c_ctx (h_clock h p) in
  if negb (ctx =? NULL) then
    let prev := c_prev (h_clock h p) in
    let next := c_next (h_clock h p) in
    let h :=
      if negb (prev =? NULL)
      then set_clock h prev (clk_set_next (h_clock h prev) next)
      else set_ctx h ctx (ctx_set_clocks (h_ctx h ctx) next (x_lastClock (h_ctx h ctx))) in
    let h :=
      if negb (next =? NULL)
      then set_clock h next (clk_set_prev (h_clock h next) prev)
      else set_ctx h ctx (ctx_set_clocks (h_ctx h ctx) (x_firstClock (h_ctx h ctx)) prev) in
    let h := set_clock h p (clk_set_ctx (h_clock h p) NULL) in
    BKClockReset fuel h p
  else Ok h.

(** [BKClockSetPeriod], BKClock.c lines 161-164. *)
Definition BKClockSetPeriod (h : heap) (p : ptr) (period : Z) : heap :=
  let c := h_clock h p in
  set_clock h p (mk_clock (c_ctx c) (c_prev c) (c_next c) period (c_time c) (c_nextTime c) (c_counter c) (c_cb c)).

(** Loop of [BKClockDisposeObject], BKClock.c lines 81-84: [nextDivider] is
    set to the divider itself. *)
Fixpoint dispose_dividers (fuel : nat) (h : heap) (p : ptr) : res heap :=
  if p =? NULL then Ok h else
  match fuel with
  | O => Err EFuel
  | S fuel => let nextDivider := p in dispose_dividers fuel (BKDividerDetach h p) nextDivider
  end.

(** [BKClockDisposeObject], BKClock.c lines 75-85. *)
Definition BKClockDisposeObject (fuel : nat) (h : heap) (p : ptr) : res heap :=
  let* h := BKClockDetach fuel h p in
  dispose_dividers fuel h (g_first (h_group h (GClock p))).

(** ** Units (list part) *)

(** [BKUnitAttach], BKUnit.c lines 260-283. *)
Definition BKUnitAttach (h : heap) (p ctx : ptr) : res (heap * Z) :=
  if u_ctx (h_unit h p) =? NULL then
    let last := x_lastUnit (h_ctx h ctx) in
    let h := set_unit h p (mk_unode ctx last NULL (x_deltaTime (h_ctx h ctx))) in
    let h :=
      if negb (last =? NULL)
      then let u := h_unit h last in
           let h := set_unit h last (mk_unode (u_ctx u) (u_prev u) p (u_time u)) in
           set_ctx h ctx (ctx_set_units (h_ctx h ctx) (x_firstUnit (h_ctx h ctx)) p)
      else set_ctx h ctx (ctx_set_units (h_ctx h ctx) p p) in
    Ok (h, 0)
  else Ok (h, BK_INVALID_STATE).

(** [BKUnitDetach], BKUnit.c lines 285-309. *)
Definition BKUnitDetach (h : heap) (p : ptr) : heap :=
  let ctx := u_ctx (h_unit h p) in
  if negb (ctx =? NULL) then
    let prev := u_prev (h_unit h p) in
    let next := u_next (h_unit h p) in
    let h :=
      if negb (prev =? NULL)
      then let u := h_unit h prev in set_unit h prev (mk_unode (u_ctx u) (u_prev u) next (u_time u))
      else set_ctx h ctx (ctx_set_units (h_ctx h ctx) next (x_lastUnit (h_ctx h ctx))) in
    let h :=
      if negb (next =? NULL)
      then let u := h_unit h next in set_unit h next (mk_unode (u_ctx u) prev (u_next u) (u_time u))
      else set_ctx h ctx (ctx_set_units (h_ctx h ctx) (x_firstUnit (h_ctx h ctx)) prev) in
    let u := h_unit h p in
    set_unit h p (mk_unode NULL (u_prev u) (u_next u) 0)
  else h.

(** [BKContextAttachDivider], BKContext.c lines 481-516.  [master] is the
    address of [ctx -> masterClock]; the results of both attach calls are ignored. *)
Definition BKContextAttachDivider (fuel : nat) (h : heap) (ctx master p : ptr) (type : Z) : res (heap * Z) :=
  match type with
  | 0 | 1 =>
    let g := if type =? 0 then GEffect ctx else GBeat ctx in
    if BKTimeIsGreater (c_period (h_clock h master)) 0 then
      let* (h, _) := BKDividerAttachToGroup h p g in
      let* (h, _) := BKClockAttach fuel h master ctx (x_firstClock (h_ctx h ctx)) in
      Ok (h, 0)
    else Ok (h, BK_INVALID_VALUE)
  | _ => Ok (h, BK_INVALID_ATTRIBUTE)
  end.

(** Loops of [BKContextDisposeObject], BKContext.c lines 110-118. *)
Fixpoint detach_units (fuel : nat) (h : heap) (p : ptr) : res heap :=
  if p =? NULL then Ok h else
  match fuel with
  | O => Err EFuel
  | S fuel => let nextUnit := u_next (h_unit h p) in detach_units fuel (BKUnitDetach h p) nextUnit
  end.
Fixpoint detach_clocks (fuel : nat) (h : heap) (p : ptr) : res heap :=
  if p =? NULL then Ok h else
  match fuel with
  | O => Err EFuel
  | S fuel => let nextClock := c_next (h_clock h p) in
              let* h := BKClockDetach fuel h p in detach_clocks fuel h nextClock
  end.
(** [BKContextDisposeObject], BKContext.c lines 104-127, without freeing the
    channels.  [BKDispose (& ctx -> masterClock)] runs [BKClockDisposeObject]. *)
Definition BKContextDisposeObject (fuel : nat) (h : heap) (ctx master : ptr) : res heap :=
  let* h := detach_units fuel h (x_firstUnit (h_ctx h ctx)) in
  let* h := detach_clocks fuel h (x_firstClock (h_ctx h ctx)) in
  BKClockDisposeObject fuel h master.

(** ** Ticking *)

Record oracle := mk_oracle {
  (** value left in [info.nextTime] by the callback of clock [c] (and of the
      dividers ticked with it) at its [k]-th tick at clock time [t] *)
  o_next : ptr -> Z -> Z -> Z;
  (** value left in [info.divider] by the callback of divider [d] at
      context time [t] when called with value [v] *)
  o_div : ptr -> Z -> Z -> Z }.

Inductive event := EvClock (c : ptr) (t : Z) | EvDivider (d : ptr) (t : Z).

(** One divider of [BKDividerTick], BKClock.c lines 193-208. [info.divider] is unsigned. *)
Definition divider_tick (o : Z -> Z) (d : divider) : res (divider * bool) :=
  let '(d, fired) :=
    if d_counter d <=? 0 then
      let v := if d_cb d then s32 (BKMax 1 (u32 (o (u32 (d_divider d))))) else d_divider d in
      (div_set_state d v v, d_cb d)
    else (d, false) in
  let* n := chk32 (d_counter d - 1) in
  Ok (div_set_state d (d_divider d) n, fired).

(** [BKDividerTick], BKClock.c lines 187-212. *)
Fixpoint BKDividerTick (fuel : nat) (o : oracle) (now : Z) (h : heap) (tr : list event) (p : ptr)
  : res (heap * list event) :=
  if p =? NULL then Ok (h, tr) else
  match fuel with
  | O => Err EFuel
  | S fuel =>
    let* (d, fired) := divider_tick (o_div o p now) (h_div h p) in
    let h := set_div h p d in
    let tr := if fired then tr ++ [EvDivider p now] else tr in
    BKDividerTick fuel o now h tr (d_next (h_div h p))
  end.

(** [BKClockTick], BKClock.c lines 214-244; [now] is only recorded in the trace.
    The callback of a master clock is [BKContextTick], BKContext.c lines 31-37. *)
Definition BKClockTick (fuel : nat) (o : oracle) (now : Z) (h : heap) (tr : list event) (p : ptr)
  : res (heap * list event) :=
  let c := h_clock h p in
  if BKTimeIsEqual (c_time c) (c_nextTime c) then
    let tr := tr ++ [EvClock p now] in
    let* (h, tr) :=
      match c_cb c with
      | CbMaster x =>
        let* (h, tr) := BKDividerTick fuel o now h tr (g_first (h_group h (GBeat x))) in
        BKDividerTick fuel o now h tr (g_first (h_group h (GEffect x)))
      | _ => Ok (h, tr)
      end in
    let* (h, tr) := BKDividerTick fuel o now h tr (g_first (h_group h (GClock p))) in
    let nt := o_next o p (c_counter c) (c_time c) in
    let* (period, nextTime) :=
      if BKTimeIsGreater nt (c_time c)
      then let* per := BKTimeSub nt (c_time c) in Ok (per, nt)
      else let* n := BKTimeAdd (c_time c) (c_period c) in Ok (c_period c, n) in
    Ok (set_clock h p (mk_clock (c_ctx c) (c_prev c) (c_next c) period (c_time c) nextTime
                                (u32 (c_counter c + 1)) (c_cb c)), tr)
  else Ok (h, tr).

(** First loop of [BKClocksAdvance], BKContext.c lines 350-356. *)
Fixpoint tick_loop (fuel : nat) (o : oracle) (now : Z) (h : heap) (tr : list event) (nextTime : Z) (p : ptr)
  : res (heap * list event * Z) :=
  if p =? NULL then Ok (h, tr, nextTime) else
  match fuel with
  | O => Err EFuel
  | S fuel' =>
    let* (h, tr) := BKClockTick fuel o now h tr p in
    let c := h_clock h p in
    let nextTime := if BKTimeIsLess (c_nextTime c) nextTime then c_nextTime c else nextTime in
    tick_loop fuel' o now h tr nextTime (c_next c)
  end.

(** Second loop of [BKClocksAdvance], BKContext.c lines 370-371. *)
Fixpoint advance_loop (fuel : nat) (h : heap) (period : Z) (p : ptr) : res heap :=
  if p =? NULL then Ok h else
  match fuel with
  | O => Err EFuel
  | S fuel =>
    let c := h_clock h p in
    let* t := BKTimeAddFUInt20 (c_time c) period in
    let h := set_clock h p (mk_clock (c_ctx c) (c_prev c) (c_next c) (c_period c) t (c_nextTime c) (c_counter c) (c_cb c)) in
    advance_loop fuel h period (c_next c)
  end.

(** [BKClocksAdvance], BKContext.c lines 339-376.  Callbacks do not reset
    clocks (see above), so the outer do-while loop runs once. *)
Definition BKClocksAdvance (fuel : nat) (o : oracle) (h : heap) (tr : list event) (x : ptr)
  : res (heap * list event * Z) :=
  let h := set_ctx h x (ctx_set_reset (h_ctx h x) false) in
  let* (htr, nextTime) := tick_loop fuel o (x_currentTime (h_ctx h x)) h tr BK_TIME_MAX (x_firstClock (h_ctx h x)) in
  let '(h, tr) := htr in
  let* deltaTime := BKTimeSub nextTime (x_currentTime (h_ctx h x)) in
  let period := if BKTimeIsLessFUInt20 deltaTime (BK_INT_MAX / 3)
                then BKTimeGetFUInt20 deltaTime else BK_INT_MAX / 3 in
  let* h := advance_loop fuel h period (x_firstClock (h_ctx h x)) in
  let* t := BKTimeAddFUInt20 (x_currentTime (h_ctx h x)) period in
  let h := set_ctx h x (ctx_set_time (h_ctx h x) (x_deltaTime (h_ctx h x)) t) in
  Ok (h, tr, period).

(** Clock part of [BKContextRun], BKContext.c lines 384-401; units are run up
    to each value of [time] (not part of this model).  [n] bounds the iterations. *)
Fixpoint run_loop (n : nat) (fuel : nat) (o : oracle) (h : heap) (tr : list event) (x : ptr) (time endTime : Z)
  : res (heap * list event * Z) :=
  if time <? endTime then
    match n with
    | O => Err EFuel
    | S n => let* (htr, clockDelta) := BKClocksAdvance fuel o h tr x in
             let '(h, tr) := htr in
             run_loop n fuel o h tr x (u32 (time + clockDelta)) endTime
    end
  else Ok (h, tr, time).

Definition BKContextRun (n fuel : nat) (o : oracle) (h : heap) (tr : list event) (x : ptr) (endTime : Z)
  : res (heap * list event) :=
  if negb (x_firstClock (h_ctx h x) =? NULL) then
    let* (htr, time) := run_loop n fuel o h tr x (x_deltaTime (h_ctx h x)) endTime in
    let '(h, tr) := htr in
    Ok (set_ctx h x (ctx_set_time (h_ctx h x) time (x_currentTime (h_ctx h x))), tr)
  else Ok (h, tr).

(** Clock part of [BKContextEnd], BKContext.c lines 411-423. *)
Definition BKContextEnd (n fuel : nat) (o : oracle) (h : heap) (tr : list event) (x : ptr) (endTime : Z)
  : res (heap * list event) :=
  let* (h, tr) := BKContextRun n fuel o h tr x endTime in
  let c := h_ctx h x in
  Ok (set_ctx h x (ctx_set_time c (u32 (x_deltaTime c - endTime)) (x_currentTime c)), tr).
