(** Properties C14-C20 and C54: clocks, dividers and the lists of a context. *)
From Verif Require Import CIntFacts TimeModel ClockModel ListSpec DList Family ListProofs ClockSpec ClockProofs ClockProofs2.
Ltac Zify.zify_post_hook ::= idtac.

(** ** C14: clocks tick exactly on schedule *)

(** Clocks and dividers are attached in any order to a fresh context, then
    [BKContextEnd] is called with any lengths.  [now] is the context time
    reached, which is at least the sum of the lengths.  Every clock has ticked
    exactly at those times of its own schedule which are before [now]. *)
Theorem clocks_tick_on_schedule per cb dv ops s codes o x ends fuel n D :
  spec_run empty_lists ops s codes ->
  x <> 0 -> l_clocks s x <> [] ->
  (forall c, In c (l_clocks s x) -> 0 < per c < 2 ^ 62) ->
  (forall c k t, 0 <= t < 2 ^ 62 -> o_next o c k t < 2 ^ 62) ->
  (forall d, 1 <= dv d < 2 ^ 31) ->
  (forall d t v, 1 <= v < 2 ^ 31 -> 0 <= o_div o d t v < 2 ^ 31) ->
  (forall e, In e ends -> 0 <= e < 2 ^ 31 /\ e <= Z.of_nat n) ->
  Zsum ends < 2 ^ 61 ->
  (forall g, (length (l_divs s g) <= D)%nat) -> (length ops + length (l_clocks s x) + D <= fuel)%nat ->
  exists h0 h' tr now,
    lrun fuel (fresh_heap per cb dv 0 0) ops = Ok (h0, codes) /\
    run_ends n fuel o h0 [] x ends = Ok (h', tr) /\
    x_currentTime (h_ctx h' x) = now /\ Zsum ends <= now < Zsum ends + 715827882 /\
    x_deltaTime (h_ctx h' x) = now - Zsum ends /\
    forall c, In c (l_clocks s x) ->
      exists k, clock_trace c tr = map (tick_time o c (per c)) (seq 0 k) /\
        (forall i, (i < k)%nat -> tick_time o c (per c) i < now) /\ now <= tick_time o c (per c) k.
Proof.
  intros SR Hx NE HP HN HV HO HE HS HD HF.
  assert (RH : run_hyps o x s per D) by (constructor; auto).
  destruct (lrun_ok ops fuel _ _ _ _ O (rep_fresh per cb dv 0 0) ltac:(intros; cbn; lia) ltac:(lia) SR) as (h0 & E0 & R0).
  assert (Q0 := quiet_run per cb dv fuel ops _ _ _ (quiet_fresh per cb dv) E0).
  assert (RI := rinv_start o x s per cb dv D h0 RH ltac:(intros d; specialize (HV d); lia) R0 Q0).
  destruct (q_ctx _ _ _ _ Q0 x) as (T0 & _).
  destruct (run_ends_ok o x s per cb (h_div h0) D RH fuel n NE ltac:(lia) ends h0 [] 0 RI) as (h' & tr & E1 & RI1 & DT).
  - intros e He. specialize (HE e He). lia.
  - rewrite T0. lia.
  - rewrite T0. lia.
  - cbn [app] in *. rewrite T0 in RI1. destruct RI1 as (GI & PN).
    set (now := 0 - 0 + Zsum ends + x_deltaTime (h_ctx h' x)) in *.
    exists h0, h', tr, now. split; [exact E0|]. split; [exact E1|]. split; [apply (gi_cur _ _ _ _ _ _ _ _ GI)|].
    split; [lia|]. split; [lia|]. intros c Hc. destruct (PN c Hc) as (k & [_ _ _ _ C5] & P1 & P2). exists k. auto.
Qed.

(** Callbacks that do not move the next tick: ticks at 0, p, 2p, ... .  For
    times before the end of the last run, the ticks are exactly the multiples of
    the period; neither other clocks nor the split into calls has an influence. *)
Theorem clocks_tick_at_multiples per cb dv ops s codes o x ends fuel n D :
  spec_run empty_lists ops s codes ->
  x <> 0 -> l_clocks s x <> [] ->
  (forall c, In c (l_clocks s x) -> 0 < per c < 2 ^ 62) ->
  (forall c k t, 0 <= t < 2 ^ 62 -> o_next o c k t < 2 ^ 62) ->
  (forall d, 1 <= dv d < 2 ^ 31) ->
  (forall d t v, 1 <= v < 2 ^ 31 -> 0 <= o_div o d t v < 2 ^ 31) ->
  (forall e, In e ends -> 0 <= e < 2 ^ 31 /\ e <= Z.of_nat n) ->
  Zsum ends < 2 ^ 61 ->
  (forall g, (length (l_divs s g) <= D)%nat) -> (length ops + length (l_clocks s x) + D <= fuel)%nat ->
  exists h0 h' tr,
    lrun fuel (fresh_heap per cb dv 0 0) ops = Ok (h0, codes) /\
    run_ends n fuel o h0 [] x ends = Ok (h', tr) /\
    forall c, In c (l_clocks s x) -> (forall k t, o_next o c k t <= t) ->
      (exists k, clock_trace c tr = map (fun i => Z.of_nat i * per c) (seq 0 k)) /\
      (forall t, t < Zsum ends -> (In t (clock_trace c tr) <-> 0 <= t /\ (per c | t))).
Proof.
  intros SR Hx NE HP HN HV HO HE HS HD HF.
  destruct (clocks_tick_on_schedule per cb dv ops s codes o x ends fuel n D SR Hx NE HP HN HV HO HE HS HD HF)
    as (h0 & h' & tr & now & E0 & E1 & _ & HNOW & _ & T). exists h0, h', tr. split; [exact E0|]. split; [exact E1|].
  intros c Hc HC. destruct (T c Hc) as (k & T1 & T2 & T3).
  assert (TT : forall i, tick_time o c (per c) i = Z.of_nat i * per c) by (intros i; unfold tick_time; rewrite sched_const by exact HC; reflexivity).
  assert (T1' : clock_trace c tr = map (fun i => Z.of_nat i * per c) (seq 0 k)) by (rewrite T1; apply map_ext; exact TT).
  split; [exists k; exact T1'|]. intros t Ht. rewrite T1', in_map_iff. pose proof (HP c Hc) as HPc.
  split.
  - intros (i & <- & _). split; [nia|]. exists (Z.of_nat i). reflexivity.
  - intros (H0 & (q & ->)). exists (Z.to_nat q). assert (0 <= q) by nia. split; [f_equal; lia|].
    apply in_seq. split; [lia|]. rewrite TT in T3. cbn [plus]. nia.
Qed.

(** Example: two clocks and a divider, two calls. *)
Definition ex_ops : list lop :=
  [OAttachClock 10 1 NULL; OAttachClock 11 1 BK_FIRST_ELEMENT_PTR; OAttachDiv 20 (GClock 10); OAttachDiv 21 (GBeat 1);
   OAttachUnit 30 1; OAttachUnit 31 1].
Definition ex_lists : lists :=
  put_units (put_units (put_divs (put_divs (put_clocks (put_clocks empty_lists 1 [10]) 1 [11; 10]) (GClock 10) [20]) (GBeat 1) [21]) 1 [30]) 1 [30; 31].
Ltac notin := cbn; intros;
  repeat match goal with |- context [if ?b then _ else _] => destruct b | H : context [if ?b then _ else _] |- _ => destruct b end;
  cbn in *; intuition lia.
Lemma ex_spec : spec_run empty_lists ex_ops ex_lists [0; 0; 0; 0; 0; 0].
Proof.
  unfold ex_ops. eapply spec_cons; [apply (sp_clock_last empty_lists 10 1); [lia|lia|notin]|].
  eapply spec_cons; [apply (sp_clock_first _ 11 1); [lia|lia|notin]|].
  eapply spec_cons; [apply (sp_div_attach _ 20 (GClock 10)); [lia|notin]|].
  eapply spec_cons; [apply (sp_div_attach _ 21 (GBeat 1)); [lia|notin]|].
  eapply spec_cons; [apply (sp_unit_attach _ 30 1); [lia|lia|notin]|].
  eapply spec_cons; [apply (sp_unit_attach _ 31 1); [lia|lia|notin]|].
  apply spec_nil.
Qed.
Definition ex_oracle : oracle := mk_oracle (fun _ _ t => t) (fun _ _ v => v).
Definition ex_per (c : Z) : Z := if c =? 10 then 7 else 10.
Definition ex_cb (c : Z) : clock_cb := if c =? 11 then CbMaster 1 else CbUser.

Example clocks_tick_ex : exists h0 h' tr,
  lrun 20 (fresh_heap ex_per ex_cb (fun _ => 2) 0 0) ex_ops = Ok (h0, [0; 0; 0; 0; 0; 0]) /\
  run_ends 40 20 ex_oracle h0 [] 1 [15; 18] = Ok (h', tr) /\
  (forall t, t < 33 -> (In t (clock_trace 10 tr) <-> 0 <= t /\ (7 | t))).
Proof.
  destruct (clocks_tick_at_multiples ex_per ex_cb (fun _ => 2) ex_ops ex_lists _ ex_oracle 1 [15; 18] 20 40 1 ex_spec)
    as (h0 & h' & tr & E0 & E1 & T).
  - lia.
  - discriminate.
  - intros c _. unfold ex_per. destruct (c =? 10); lia.
  - cbn; lia.
  - intros; lia.
  - cbn; lia.
  - intros e [<-|[<-|[]]]; lia.
  - cbn; lia.
  - intros [c|z|z]; cbn; repeat match goal with |- context [if ?b then _ else _] => destruct b end; cbn; lia.
  - cbn; lia.
  - exists h0, h', tr. split; [exact E0|]. split; [exact E1|]. apply (T 10); [right; left; reflexivity|intros; cbn; lia].
Qed.

Definition ex_trace (per : Z -> Z) (cb : Z -> clock_cb) (dv : Z -> Z) (o : oracle) (ops : list lop) (x : Z) (ends : list Z) : list event :=
  match lrun 20 (fresh_heap per cb dv 0 0) ops with
  | Ok (h, _) => match run_ends 1000 20 o h [] x ends with Ok (_, tr) => tr | Err _ => [] end
  | Err _ => []
  end.
Example clocks_trace_ex :
  clock_trace 10 (ex_trace ex_per ex_cb (fun _ => 2) ex_oracle ex_ops 1 [15; 18]) = [0; 7; 14; 21; 28] /\
  clock_trace 11 (ex_trace ex_per ex_cb (fun _ => 2) ex_oracle ex_ops 1 [15; 18]) = [0; 10; 20; 30] /\
  div_trace 20 (ex_trace ex_per ex_cb (fun _ => 2) ex_oracle ex_ops 1 [15; 18]) = [0; 14; 28] /\
  div_trace 21 (ex_trace ex_per ex_cb (fun _ => 2) ex_oracle ex_ops 1 [33]) = [0; 20].
Proof. vm_compute. repeat split. Qed.

(** ** C15: dividers fire on every n-th tick *)

(** A divider that is ticked at times [t 0], [t 1], ... fires at ticks 0, v1,
    v1 + v2, ..., where the distances are the values left by its callbacks
    (at least 1), as long as they are below 2^31. *)
Theorem divider_fires_partial o t (n : Z) (d : divider) k :
  (forall u v, 1 <= v < 2 ^ 31 -> 0 <= o u v < 2 ^ 31) -> 1 <= n < 2 ^ 31 ->
  d_cb d = true -> d_divider d = n -> d_counter d = 0 ->
  exists d' m, div_iter o d (map t (seq 0 k)) = Ok (d', map (fun j => t (fst (firing o t n j))) (seq 0 m)) /\
    (forall j, (j < m)%nat -> (fst (firing o t n j) < k)%nat) /\ (k <= fst (firing o t n m))%nat.
Proof.
  intros Ho Hn H1 H2 H3. destruct (firing_run o t n d Ho Hn H1 H2 H3 k) as (d' & m & E & _ & _ & _ & A & B & _).
  exists d', m. auto.
Qed.

(** Values that are never changed: ticks 0, n, 2n, ... *)
Theorem divider_fires_every_nth_partial t (n : Z) (d : divider) k :
  1 <= n < 2 ^ 31 -> d_cb d = true -> d_divider d = n -> d_counter d = 0 ->
  exists d' m, div_iter (fun _ v => v) d (map t (seq 0 k)) = Ok (d', map (fun j => t (j * Z.to_nat n)%nat) (seq 0 m)) /\
    (forall i, (i * Z.to_nat n < k)%nat <-> (i < m)%nat).
Proof.
  intros Hn H1 H2 H3.
  destruct (divider_fires_partial (fun _ v => v) t n d k ltac:(intros; lia) Hn H1 H2 H3) as (d' & m & E & A & B).
  assert (F : forall j, fst (firing (fun _ v => v) t n j) = (j * Z.to_nat n)%nat) by (intros j; rewrite firing_const by lia || reflexivity; reflexivity).
  exists d', m. split.
  - rewrite E. f_equal. f_equal. apply map_ext. intros j. rewrite F. reflexivity.
  - intros i. rewrite F in B. split.
    + intros Hi. destruct (Nat.lt_ge_cases i m) as [L|G]; [exact L|]. exfalso.
      assert (m * Z.to_nat n <= i * Z.to_nat n)%nat by (apply Nat.mul_le_mono_r; exact G). lia.
    + intros Hi. specialize (A i Hi). rewrite F in A. exact A.
Qed.

Example divider_fires_ex :
  let h := BKDividerInit (fresh_heap (fun _ => 1) (fun _ => CbUser) (fun _ => 1) 0 0) 20 3 true in
  exists d', div_iter (fun t v => if t =? 30 then 0 else if t =? 40 then 2 else v) (h_div h 20) (map (fun i => 10 * Z.of_nat i) (seq 0 9)) =
    Ok (d', [0; 30; 40; 60; 80]).
Proof. eexists. vm_compute. reflexivity. Qed.

(** Values of 2^31 and more become negative: the divider fires on every tick,
    and for 2^31 the counter overflows. *)
Theorem divider_fires_refuted : exists count,
  let h := BKDividerInit (fresh_heap (fun _ => 1) (fun _ => CbUser) (fun _ => 1) 0 0) 20 count true in
  count = 2 ^ 31 + 5 /\
  exists d', div_iter (fun _ v => v) (h_div h 20) [0; 10; 20; 30] = Ok (d', [0; 10; 20; 30]).
Proof. exists 2147483653. split; [reflexivity|]. eexists. vm_compute. reflexivity. Qed.
Theorem divider_overflow_refuted :
  let h := BKDividerInit (fresh_heap (fun _ => 1) (fun _ => CbUser) (fun _ => 1) 0 0) 20 (2 ^ 31) true in
  div_iter (fun _ v => v) (h_div h 20) [0] = Err EOverflow.
Proof. vm_compute. reflexivity. Qed.

(** A divider as made by [BKDividerInit]; a count of 0 is taken as 1. *)
Theorem divider_init_fires_partial h p t (count : Z) k :
  0 <= count < 2 ^ 31 ->
  exists d' m, div_iter (fun _ v => v) (h_div (BKDividerInit h p count true) p) (map t (seq 0 k)) =
      Ok (d', map (fun j => t (j * Z.to_nat (Z.max 1 count))%nat) (seq 0 m)) /\
    (forall i, (i * Z.to_nat (Z.max 1 count) < k)%nat <-> (i < m)%nat).
Proof.
  intros Hc.
  assert (E : h_div (BKDividerInit h p count true) p = mk_divider None NULL NULL true (Z.max 1 count) 0).
  { unfold BKDividerInit, set_div. cbn [h_div]. unfold pupd. rewrite Z.eqb_refl. f_equal.
    rewrite u32_id by lia. unfold BKMax. destruct (Z.gtb_spec 1 count); rewrite s32_id by lia; lia. }
  rewrite E. apply divider_fires_every_nth_partial; try reflexivity. lia.
Qed.
Example divider_init_fires_example :
  exists d', div_iter (fun _ v => v) (h_div (BKDividerInit (fresh_heap (fun _ => 1) (fun _ => CbUser) (fun _ => 1) 0 0) 20 0 true) 20)
    [0; 10; 20] = Ok (d', [0; 10; 20]).
Proof. eexists. vm_compute. reflexivity. Qed.

(** Dividers in a running context: the dividers of a group fire on the ticks of
    the clock which drives the group. *)
Theorem dividers_in_context_partial per cb dv ops s codes o x ends fuel n D c g :
  spec_run empty_lists ops s codes ->
  x <> 0 -> In c (l_clocks s x) ->
  (forall c, In c (l_clocks s x) -> 0 < per c < 2 ^ 62) ->
  (forall c k t, 0 <= t < 2 ^ 62 -> o_next o c k t < 2 ^ 62) ->
  (forall d, 1 <= dv d < 2 ^ 31) ->
  (forall d t v, 1 <= v < 2 ^ 31 -> 0 <= o_div o d t v < 2 ^ 31) ->
  (forall e, In e ends -> 0 <= e < 2 ^ 31 /\ e <= Z.of_nat n) ->
  Zsum ends < 2 ^ 61 ->
  (forall g, (length (l_divs s g) <= D)%nat) -> (length ops + length (l_clocks s x) + D <= fuel)%nat ->
  g = GClock c \/ (exists x', cb c = CbMaster x' /\ (forall c', cb c' = CbMaster x' -> c' = c) /\ (g = GBeat x' \/ g = GEffect x')) ->
  exists h0 h' tr,
    lrun fuel (fresh_heap per cb dv 0 0) ops = Ok (h0, codes) /\
    run_ends n fuel o h0 [] x ends = Ok (h', tr) /\
    exists k, clock_trace c tr = map (tick_time o c (per c)) (seq 0 k) /\
      forall d, In d (l_divs s g) -> exists m,
        div_trace d tr = map (fun j => tick_time o c (per c) (fst (firing (o_div o d) (tick_time o c (per c)) (dv d) j))) (seq 0 m) /\
        (forall j, (j < m)%nat -> (fst (firing (o_div o d) (tick_time o c (per c)) (dv d) j) < k)%nat) /\
        (k <= fst (firing (o_div o d) (tick_time o c (per c)) (dv d) m))%nat.
Proof.
  intros SR Hx Hc HP HN HV HO HE HS HD HF HG.
  assert (NE : l_clocks s x <> []) by (intros E; rewrite E in Hc; contradiction).
  assert (RH : run_hyps o x s per D) by (constructor; auto).
  destruct (lrun_ok ops fuel _ _ _ _ O (rep_fresh per cb dv 0 0) ltac:(intros; cbn; lia) ltac:(lia) SR) as (h0 & E0 & R0).
  assert (Q0 := quiet_run per cb dv fuel ops _ _ _ (quiet_fresh per cb dv) E0).
  assert (RI := rinv_start o x s per cb dv D h0 RH ltac:(intros d; specialize (HV d); lia) R0 Q0).
  destruct (q_ctx _ _ _ _ Q0 x) as (T0 & _).
  destruct (run_ends_ok o x s per cb (h_div h0) D RH fuel n NE ltac:(lia) ends h0 [] 0 RI) as (h' & tr & E1 & RI1 & DT).
  - intros e He. specialize (HE e He). lia.
  - rewrite T0. lia.
  - rewrite T0. lia.
  - cbn [app] in *. destruct RI1 as (GI & PN). exists h0, h', tr. split; [exact E0|]. split; [exact E1|].
    destruct (PN c Hc) as (k & [_ _ _ _ C5] & P1 & P2). exists k. split; [exact C5|].
    intros d Hd. destruct (gi_div _ _ _ _ _ _ _ _ GI g d Hd) as (K1 & K2).
    assert (DR : drive_times cb g tr = clock_trace c tr).
    { apply flat_map_ext. intros [c' t|d' t]; [|reflexivity].
      replace (drives cb c' g) with (c' =? c); [reflexivity|]. symmetry.
      destruct HG as [->|(x' & G1 & G2 & G3)].
      - apply Z.eqb_sym.
      - assert (G4 : drives cb c' g = match cb c' with CbMaster x'' => x'' =? x' | _ => false end) by (destruct G3 as [->| ->]; reflexivity).
        rewrite G4. destruct (Z.eqb_spec c' c) as [->|N]; [rewrite G1; apply Z.eqb_refl|].
        destruct (cb c') as [|x''|] eqn:E; try reflexivity. destruct (Z.eqb_spec x'' x') as [->|]; [|reflexivity]. exfalso; auto. }
    rewrite DR, C5 in K1.
    destruct (q_div _ _ _ _ Q0 d) as (D1 & D2 & D3).
    destruct (divider_fires_partial (o_div o d) (tick_time o c (per c)) (dv d) (h_div h0 d) k) as (d' & m & F1 & F2 & F3); auto.
    assert (F1' : div_iter (o_div o d) (h_div h0 d) (map (fun i => fst (sched o c (per c) i)) (seq 0 k)) =
      Ok (d', map (fun j => tick_time o c (per c) (fst (firing (o_div o d) (tick_time o c (per c)) (dv d) j))) (seq 0 m))) by exact F1.
    rewrite K1 in F1'. exists m. split; [congruence|]. auto.
Qed.

Example dividers_in_context_ex : exists h0 h' tr,
  lrun 20 (fresh_heap ex_per ex_cb (fun _ => 2) 0 0) ex_ops = Ok (h0, [0; 0; 0; 0; 0; 0]) /\
  run_ends 40 20 ex_oracle h0 [] 1 [15; 18] = Ok (h', tr) /\
  exists k, clock_trace 11 tr = map (tick_time ex_oracle 11 10) (seq 0 k) /\
    forall d, In d [21] -> exists m,
      div_trace d tr = map (fun j => tick_time ex_oracle 11 10 (fst (firing (o_div ex_oracle d) (tick_time ex_oracle 11 10) 2 j))) (seq 0 m) /\
      (forall j, (j < m)%nat -> (fst (firing (o_div ex_oracle d) (tick_time ex_oracle 11 10) 2 j) < k)%nat) /\
      (k <= fst (firing (o_div ex_oracle d) (tick_time ex_oracle 11 10) 2 m))%nat.
Proof.
  apply (dividers_in_context_partial ex_per ex_cb (fun _ => 2) ex_ops ex_lists _ ex_oracle 1 [15; 18] 20 40 1 11 (GBeat 1) ex_spec).
  - lia.
  - left. reflexivity.
  - intros c _. unfold ex_per. destruct (c =? 10); lia.
  - cbn; lia.
  - intros; lia.
  - cbn; lia.
  - intros e [<-|[<-|[]]]; lia.
  - cbn; lia.
  - intros [c|z|z]; cbn; repeat match goal with |- context [if ?b then _ else _] => destruct b end; cbn; lia.
  - cbn; lia.
  - right. exists 1. split; [reflexivity|]. split; [|auto]. intros c' E. unfold ex_cb in E. destruct (c' =? 11) eqn:E1; [lia|discriminate].
Qed.

(** ** C16, C17: lists *)

(** The lists seen by walking the links in both directions. *)
Definition sees (h : heap) (s : lists) (fuel : nat) : Prop :=
  (forall x, x <> 0 -> (length (l_clocks s x) <= fuel)%nat ->
     walk fuel (fun p => c_next (h_clock h p)) (x_firstClock (h_ctx h x)) = Some (l_clocks s x) /\
     walk fuel (fun p => c_prev (h_clock h p)) (x_lastClock (h_ctx h x)) = Some (rev (l_clocks s x)) /\ NoDup (l_clocks s x)) /\
  (forall g, (length (l_divs s g) <= fuel)%nat ->
     walk fuel (fun p => d_next (h_div h p)) (g_first (h_group h g)) = Some (l_divs s g) /\
     walk fuel (fun p => d_prev (h_div h p)) (g_last (h_group h g)) = Some (rev (l_divs s g)) /\ NoDup (l_divs s g)) /\
  (forall x, x <> 0 -> (length (l_units s x) <= fuel)%nat ->
     walk fuel (fun p => u_next (h_unit h p)) (x_firstUnit (h_ctx h x)) = Some (l_units s x) /\
     walk fuel (fun p => u_prev (h_unit h p)) (x_lastUnit (h_ctx h x)) = Some (rev (l_units s x)) /\ NoDup (l_units s x)).

Lemma rep_sees h s fuel : rep h s -> sees h s fuel.
Proof.
  intros [RC RD RU]. split; [|split].
  - intros x Hx F. destruct (fam_dll _ _ _ _ _ _ _ RC x Hx) as (D1 & D2 & D3 & D4). cbv beta in *. rewrite D1, D2.
    split; [exact (walk_forward _ _ _ _ _ D3 F)|]. split; [exact (walk_backward _ _ _ _ _ D3 F)|exact D4].
  - intros x F. destruct (fam_dll _ _ _ _ _ _ _ RD x I) as (D1 & D2 & D3 & D4). cbv beta in *. rewrite D1, D2.
    split; [exact (walk_forward _ _ _ _ _ D3 F)|]. split; [exact (walk_backward _ _ _ _ _ D3 F)|exact D4].
  - intros x Hx F. destruct (fam_dll _ _ _ _ _ _ _ RU x Hx) as (D1 & D2 & D3 & D4). cbv beta in *. rewrite D1, D2.
    split; [exact (walk_forward _ _ _ _ _ D3 F)|]. split; [exact (walk_backward _ _ _ _ _ D3 F)|exact D4].
Qed.

(** Every sequence of operations on clocks, dividers and units which has a
    meaning on plain lists gives these lists and return codes.  Missing:
    attaching a clock before a clock of another context (see C19). *)
Theorem lists_refine_partial per cb dv delta current ops s codes fuel :
  spec_run empty_lists ops s codes -> (length ops <= fuel)%nat ->
  exists h, lrun fuel (fresh_heap per cb dv delta current) ops = Ok (h, codes) /\ sees h s fuel.
Proof.
  intros SR F. destruct (lrun_ok ops fuel _ _ _ _ O (rep_fresh per cb dv delta current) ltac:(intros; cbn; lia) F SR) as (h & E & R).
  exists h. split; [exact E|apply rep_sees; exact R].
Qed.

(** The same for dividers and units only, where nothing is missing: each
    operation has a meaning in each state. *)
Definition no_clock_op (o : lop) : Prop :=
  match o with
  | OAttachClock _ _ _ | ODetachClock _ | OResetClock _ => False
  | OAttachDiv d _ | ODetachDiv d => d <> 0
  | OAttachUnit u x => u <> 0 /\ x <> 0
  | ODetachUnit u => u <> 0
  end.

Lemma in_some_div h s d : rep h s -> (exists g, In d (l_divs s g)) \/ (forall g, ~ In d (l_divs s g)).
Proof.
  intros R. destruct (Z.eq_dec d 0) as [->|Hd].
  - right. intros g I0. apply (fam_mem _ _ _ _ _ _ _ (rp_divs _ _ R) g 0 I) in I0. lia.
  - destruct (d_group (h_div h d)) as [g|] eqn:E.
    + left. exists g. apply (fam_mem _ _ _ _ _ _ _ (rp_divs _ _ R)); auto.
    + right. intros g I0. apply (fam_mem _ _ _ _ _ _ _ (rp_divs _ _ R) g d I) in I0. destruct I0; congruence.
Qed.
Lemma in_some_unit h s u : rep h s -> (exists x, x <> 0 /\ In u (l_units s x)) \/ (forall x, x <> 0 -> ~ In u (l_units s x)).
Proof.
  intros R. destruct (Z.eq_dec u 0) as [->|Hd].
  - right. intros x Hx I0. apply (fam_mem _ _ _ _ _ _ _ (rp_units _ _ R) x 0 Hx) in I0. lia.
  - destruct (Z.eq_dec (u_ctx (h_unit h u)) 0) as [E|E].
    + right. intros x Hx I0. apply (fam_mem _ _ _ _ _ _ _ (rp_units _ _ R) x u Hx) in I0. destruct I0; congruence.
    + left. exists (u_ctx (h_unit h u)). split; [exact E|]. apply (fam_mem _ _ _ _ _ _ _ (rp_units _ _ R)); auto.
Qed.

Lemma spec_total h s o : rep h s -> no_clock_op o -> exists s' code, spec_step s o s' code.
Proof.
  intros R. destruct o as [c x b|c|c|d g|d|u x|u]; cbn; try contradiction.
  - intros Hd. destruct (in_some_div h s d R) as [(y & I0)|N]; eexists _, _; [eapply sp_div_busy; exact I0|apply sp_div_attach; assumption].
  - intros Hd. destruct (in_some_div h s d R) as [(y & I0)|N]; [|eexists _, _; apply sp_div_detached; assumption].
    apply in_split in I0 as (l1 & l2 & E). eexists _, _. eapply sp_div_detach; exact E.
  - intros (Hu & Hx). destruct (in_some_unit h s u R) as [(y & Hy & I0)|N]; eexists _, _; [eapply sp_unit_busy; eassumption|apply sp_unit_attach; assumption].
  - intros Hd. destruct (in_some_unit h s u R) as [(y & Hy & I0)|N]; [|eexists _, _; apply sp_unit_detached; assumption].
    apply in_split in I0 as (l1 & l2 & E). eexists _, _. eapply sp_unit_detach; [exact Hy|exact E].
Qed.

Theorem divider_unit_lists per cb dv delta current ops fuel :
  (forall o, In o ops -> no_clock_op o) -> (length ops <= fuel)%nat ->
  exists s codes h, spec_run empty_lists ops s codes /\
    lrun fuel (fresh_heap per cb dv delta current) ops = Ok (h, codes) /\ sees h s fuel.
Proof.
  intros HN HF.
  assert (G : forall ops h s n, (forall o, In o ops -> no_clock_op o) -> rep h s -> (forall g, (length (l_divs s g) <= n)%nat) ->
     (n + length ops <= fuel)%nat -> exists s' codes h', spec_run s ops s' codes /\ lrun fuel h ops = Ok (h', codes) /\ rep h' s').
  { clear. induction ops as [|o ops IH]; intros h s n HN R HL HF.
    - exists s, [], h. split; [constructor|]. split; [reflexivity|exact R].
    - cbn [length] in HF. destruct (spec_total h s o R (HN o (or_introl eq_refl))) as (s1 & code & S1).
      destruct (lstep_ok fuel h s o s1 code R ltac:(intros g; specialize (HL g); lia) S1) as (h1 & E1 & R1).
      destruct (IH h1 s1 (S n) (fun o' Ho' => HN o' (or_intror Ho')) R1 (spec_step_divs _ _ _ _ _ S1 HL) ltac:(lia)) as (s2 & codes & h2 & S2 & E2 & R2).
      exists s2, (code :: codes), h2. split; [econstructor; eassumption|]. split; [|exact R2].
      cbn [lrun]. rewrite E1. cbn [bind]. rewrite E2. reflexivity. }
  destruct (G ops _ _ O HN (rep_fresh per cb dv delta current) ltac:(intros; cbn; lia) ltac:(lia)) as (s & codes & h & S1 & E & R).
  exists s, codes, h. split; [exact S1|]. split; [exact E|apply rep_sees; exact R].
Qed.

Example lists_refine_ex : exists h, lrun 10 (fresh_heap ex_per ex_cb (fun _ => 1) 0 5) ex_ops = Ok (h, [0; 0; 0; 0; 0; 0]) /\ sees h ex_lists 10.
Proof. apply (lists_refine_partial _ _ _ _ _ ex_ops ex_lists _ 10 ex_spec). cbn; lia. Qed.
Example lists_walk_ex :
  match lrun 10 (fresh_heap ex_per ex_cb (fun _ => 1) 0 0)
    [OAttachClock 10 1 NULL; OAttachClock 11 1 NULL; OAttachClock 12 1 11; OAttachClock 13 1 BK_FIRST_ELEMENT_PTR; ODetachClock 10; OAttachClock 12 2 NULL;
     OAttachUnit 30 1; OAttachUnit 31 1; OAttachUnit 32 1; ODetachUnit 31; OAttachUnit 31 1] with
  | Ok (h, codes) => codes = [0; 0; 0; 0; 0; BK_INVALID_STATE; 0; 0; 0; 0; 0] /\
      walk 10 (fun p => c_next (h_clock h p)) (x_firstClock (h_ctx h 1)) = Some [13; 12; 11] /\
      walk 10 (fun p => c_prev (h_clock h p)) (x_lastClock (h_ctx h 1)) = Some [11; 12; 13] /\
      walk 10 (fun p => u_next (h_unit h p)) (x_firstUnit (h_ctx h 1)) = Some [30; 32; 31]
  | Err _ => False
  end.
Proof. vm_compute. repeat split. Qed.
Example divider_unit_lists_ex : exists s codes h,
  spec_run empty_lists [OAttachDiv 5 (GBeat 1); OAttachDiv 6 (GBeat 1); ODetachDiv 5; OAttachUnit 7 1; ODetachUnit 7] s codes /\
  lrun 5 (fresh_heap ex_per ex_cb (fun _ => 1) 0 0) [OAttachDiv 5 (GBeat 1); OAttachDiv 6 (GBeat 1); ODetachDiv 5; OAttachUnit 7 1; ODetachUnit 7] = Ok (h, codes) /\ sees h s 5.
Proof.
  apply divider_unit_lists; [|cbn; lia]. intros o Ho. cbn [In] in Ho.
  repeat destruct Ho as [<-|Ho]; cbn; try contradiction; lia.
Qed.

(** ** C18: disposing a clock *)

(** With a divider attached to it, disposing a clock never returns. *)
Theorem clock_dispose_refuted : exists ops s codes c,
  spec_run empty_lists ops s codes /\ l_divs s (GClock c) <> [] /\
  forall per cb dv delta current fuel0 fuel h, (length ops <= fuel0)%nat ->
    lrun fuel0 (fresh_heap per cb dv delta current) ops = Ok (h, codes) -> BKClockDisposeObject fuel h c = Err EFuel.
Proof.
  exists ex_ops, ex_lists, [0; 0; 0; 0; 0; 0], 10. split; [exact ex_spec|]. split; [discriminate|].
  intros per cb dv delta current fuel0 fuel h F E.
  destruct (lrun_ok ex_ops fuel0 _ _ _ _ O (rep_fresh per cb dv delta current) ltac:(intros; cbn; lia) ltac:(cbn in *; lia) ex_spec) as (h' & E' & R).
  assert (h' = h) as -> by congruence. eapply clock_dispose_hangs; [exact R|lia|discriminate].
Qed.

(** Without dividers it returns and the clock is not attached any more. *)
Theorem clock_dispose_partial per cb dv delta current ops s codes fuel0 fuel c :
  spec_run empty_lists ops s codes -> (length ops <= fuel0)%nat -> c <> 0 -> l_divs s (GClock c) = [] ->
  exists h h' s', lrun fuel0 (fresh_heap per cb dv delta current) ops = Ok (h, codes) /\
    BKClockDisposeObject fuel h c = Ok h' /\ rep h' s' /\ c_ctx (h_clock h' c) = 0 /\
    (forall x, x <> 0 -> ~ In c (l_clocks s' x)) /\ l_divs s' = l_divs s /\ l_units s' = l_units s.
Proof.
  intros SR F Hc ED. destruct (lrun_ok ops fuel0 _ _ _ _ O (rep_fresh per cb dv delta current) ltac:(intros; cbn; lia) F SR) as (h & E & R).
  destruct (clock_dispose_ok h s c fuel R Hc ED) as (h' & E' & [(x & l1 & l2 & Hx & EL & R')|(N & R')]).
  - assert (N : forall y, y <> 0 -> ~ In c (l_clocks (put_clocks s x (l1 ++ l2)) y)).
    { intros y Hy. cbn. destruct (Z.eqb_spec y x) as [->|NE].
      - destruct (fam_dll _ _ _ _ _ _ _ (rp_clocks _ _ R) x Hx) as (_ & _ & _ & D4). rewrite EL in D4. apply NoDup_remove_2 in D4. exact D4.
      - intros I0. assert (I1 : In c (l_clocks s x)) by (rewrite EL; apply in_elt).
        destruct (attached _ _ _ _ (rp_clocks _ _ R) Hx I1), (attached _ _ _ _ (rp_clocks _ _ R) Hy I0). congruence. }
    exists h, h', (put_clocks s x (l1 ++ l2)). split; [exact E|]. split; [exact E'|]. split; [exact R'|].
    split; [exact (not_attached _ _ _ (rp_clocks _ _ R') Hc N)|]. split; [exact N|]. split; reflexivity.
  - exists h, h', s. split; [exact E|]. split; [exact E'|]. split; [exact R'|].
    split; [exact (not_attached _ _ _ (rp_clocks _ _ R') Hc N)|]. split; [exact N|]. split; reflexivity.
Qed.
Example clock_dispose_ex : exists h h' s', lrun 6 (fresh_heap ex_per ex_cb (fun _ => 1) 0 0) ex_ops = Ok (h, [0; 0; 0; 0; 0; 0]) /\
    BKClockDisposeObject 0 h 11 = Ok h' /\ rep h' s' /\ c_ctx (h_clock h' 11) = 0 /\
    (forall x, x <> 0 -> ~ In 11 (l_clocks s' x)) /\ l_divs s' = l_divs ex_lists /\ l_units s' = l_units ex_lists.
Proof. apply (clock_dispose_partial _ _ _ _ _ ex_ops ex_lists _ 6 0 11 ex_spec); [cbn; lia|lia|reflexivity]. Qed.

(** ** C19: rejected attach *)

(** Attaching before a clock of another context fails but leaves the clock
    half attached: it cannot be attached any more, and detaching it empties
    the list of the context. *)
Theorem rejected_attach_refuted : exists h1 h2 h3,
  lrun 9 (fresh_heap ex_per ex_cb (fun _ => 1) 0 0) [OAttachClock 10 1 NULL; OAttachClock 11 2 NULL] = Ok (h1, [0; 0]) /\
  lstep 9 h1 (OAttachClock 12 1 11) = Ok (h2, BK_INVALID_VALUE) /\
  c_ctx (h_clock h1 12) = 0 /\ c_ctx (h_clock h2 12) = 1 /\
  (exists h4, lstep 9 h2 (OAttachClock 12 1 NULL) = Ok (h4, BK_INVALID_STATE)) /\
  walk 9 (cn h1) (x_firstClock (h_ctx h1 1)) = Some [10] /\
  lstep 9 h2 (ODetachClock 12) = Ok (h3, 0) /\ walk 9 (cn h3) (x_firstClock (h_ctx h3 1)) = Some [].
Proof.
  assert (T : match lrun 9 (fresh_heap ex_per ex_cb (fun _ => 1) 0 0) [OAttachClock 10 1 NULL; OAttachClock 11 2 NULL] with
    | Ok (h1, codes) => codes = [0; 0] /\ c_ctx (h_clock h1 12) = 0 /\ walk 9 (cn h1) (x_firstClock (h_ctx h1 1)) = Some [10] /\
      match lstep 9 h1 (OAttachClock 12 1 11) with
      | Ok (h2, c2) => c2 = BK_INVALID_VALUE /\ c_ctx (h_clock h2 12) = 1 /\
        match lstep 9 h2 (OAttachClock 12 1 NULL) with Ok (_, c4) => c4 = BK_INVALID_STATE | Err _ => False end /\
        match lstep 9 h2 (ODetachClock 12) with Ok (h3, c3) => c3 = 0 /\ walk 9 (cn h3) (x_firstClock (h_ctx h3 1)) = Some [] | Err _ => False end
      | Err _ => False end
    | Err _ => False end) by (vm_compute; repeat split).
  destruct (lrun 9 _ _) as [[h1 codes]|]; [|contradiction]. destruct T as (-> & T1 & T2 & T).
  destruct (lstep 9 h1 _) as [[h2 c2]|] eqn:E2; [|contradiction]. destruct T as (-> & T3 & T4 & T5).
  destruct (lstep 9 h2 (ODetachClock 12)) as [[h3 c3]|] eqn:E3; [|contradiction]. destruct T5 as (-> & T5).
  destruct (lstep 9 h2 (OAttachClock 12 1 NULL)) as [[h4 c4]|] eqn:E4; [|contradiction]. subst c4.
  exists h1, h2, h3. repeat split; auto. exists h4. exact E4.
Qed.

(** A clock that is attached already is rejected without any effect. *)
Theorem rejected_attach_partial per cb dv delta current ops s codes fuel c x b y :
  spec_run empty_lists ops s codes -> (length ops <= fuel)%nat -> y <> 0 -> In c (l_clocks s y) ->
  exists h, lrun fuel (fresh_heap per cb dv delta current) ops = Ok (h, codes) /\
    lstep fuel h (OAttachClock c x b) = Ok (h, BK_INVALID_STATE).
Proof.
  intros SR F Hy I0. destruct (lrun_ok ops fuel _ _ _ _ O (rep_fresh per cb dv delta current) ltac:(intros; cbn; lia) F SR) as (h & E & R).
  exists h. split; [exact E|]. cbn [lstep]. unfold BKClockAttach, NULL.
  destruct (attached _ _ _ _ (rp_clocks _ _ R) Hy I0) as (Ec & _). rewrite Ec. replace (y =? 0) with false by lia. reflexivity.
Qed.
Example rejected_attach_ex : exists h, lrun 6 (fresh_heap ex_per ex_cb (fun _ => 1) 0 0) ex_ops = Ok (h, [0; 0; 0; 0; 0; 0]) /\
    lstep 6 h (OAttachClock 10 2 NULL) = Ok (h, BK_INVALID_STATE).
Proof. apply (rejected_attach_partial _ _ _ _ _ ex_ops ex_lists _ 6 10 2 NULL 1 ex_spec); [cbn; lia|lia|right; left; reflexivity]. Qed.

(** ** C20: clocks attached or reset while running *)

(** A clock with period 10 runs for 10; it is reset; then [BKContextEnd] never returns. *)
Theorem clock_reset_hangs_refuted : exists h0 h1 h2 tr,
  lrun 9 (fresh_heap (fun _ => 10) ex_cb (fun _ => 1) 0 0) [OAttachClock 10 1 NULL] = Ok (h0, [0]) /\
  run_ends 100 9 ex_oracle h0 [] 1 [10] = Ok (h1, tr) /\
  lstep 9 h1 (OResetClock 10) = Ok (h2, 0) /\
  forall n fuel endTime, (2 <= fuel)%nat -> 1 <= endTime < 2 ^ 31 -> BKContextEnd n fuel ex_oracle h2 tr 1 endTime = Err EFuel.
Proof.
  assert (T : match lrun 9 (fresh_heap (fun _ => 10) ex_cb (fun _ => 1) 0 0) [OAttachClock 10 1 NULL] with
    | Ok (h0, codes) => codes = [0] /\ match run_ends 100 9 ex_oracle h0 [] 1 [10] with
      | Ok (h1, tr) => match lstep 9 h1 (OResetClock 10) with
        | Ok (h2, c2) => c2 = 0 /\ x_firstClock (h_ctx h2 1) = 10 /\ x_deltaTime (h_ctx h2 1) = 0 /\
           c_next (h_clock h2 10) = 0 /\ x_currentTime (h_ctx h2 1) = 10 /\ c_time (h_clock h2 10) = 0 /\ c_nextTime (h_clock h2 10) = 0 /\
           c_period (h_clock h2 10) = 10 /\ c_cb (h_clock h2 10) = CbUser /\ g_first (h_group h2 (GClock 10)) = 0
        | Err _ => False end
      | Err _ => False end
    | Err _ => False end) by (vm_compute; repeat split).
  destruct (lrun 9 _ _) as [[h0 codes]|]; [|contradiction]. destruct T as (-> & T).
  destruct (run_ends _ _ _ _ _ _ _) as [[h1 tr]|] eqn:E1; [|contradiction].
  destruct (lstep 9 h1 _) as [[h2 c2]|] eqn:E2; [|contradiction]. destruct T as (-> & T1 & T2 & T3 & T4 & T5 & T6 & T7 & T8 & T9).
  exists h0, h1, h2, tr. split; [reflexivity|]. split; [exact E1|]. split; [exact E2|].
  intros n fuel endTime HF HE. unfold BKContextEnd, BKContextRun. rewrite T1, T2. cbn [NULL Z.eqb negb].
  destruct n as [|n]; [cbn [run_loop]; replace (0 <? endTime) with true by lia; reflexivity|].
  cbn [run_loop]. replace (0 <? endTime) with true by lia.
  destruct fuel as [|[|fuel]]; [lia|lia|].
  assert (E : exists h3 tr3, BKClocksAdvance (S (S fuel)) ex_oracle h2 tr 1 = Ok (h3, tr3, 0) /\ stuck h3 1 10).
  { unfold BKClocksAdvance. set (h3 := set_ctx h2 1 _).
    assert (K1 : x_firstClock (h_ctx h3 1) = 10) by exact T1. assert (K2 : x_currentTime (h_ctx h3 1) = 10) by exact T4.
    assert (K3 : h_clock h3 = h_clock h2) by reflexivity. assert (K4 : h_group h3 = h_group h2) by reflexivity.
    rewrite K1, K2. cbn [tick_loop]. change (10 =? NULL) with false. cbv iota beta.
    unfold BKClockTick. rewrite K3, T5, T6, T8. unfold BKTimeIsEqual. cbn [Z.eqb bind]. rewrite K4, T9. cbn [bind BKDividerTick NULL Z.eqb ex_oracle o_next].
    rewrite T3, T7. unfold BKTimeIsGreater, BKTimeAdd. cbn [Z.gtb Z.compare Z.add chk64 in_s64 Z.leb Pos.compare Pos.compare_cont andb bind].
    change (chk64 10) with (Ok 10). cbn [bind].
    set (h4 := set_clock h3 10 _).
    assert (L1 : h_clock h4 10 = mk_clock (c_ctx (h_clock h2 10)) (c_prev (h_clock h2 10)) 0 10 0 10 (u32 (c_counter (h_clock h2 10) + 1)) CbUser) by reflexivity.
    rewrite L1. cbn [c_nextTime c_next]. change (BKTimeIsLess 10 BK_TIME_MAX) with true. cbv iota beta.
    change (0 =? NULL) with true. cbv iota beta. cbn [bind]. 
    assert (K5 : x_currentTime (h_ctx h4 1) = 10) by exact T4. assert (K6 : x_firstClock (h_ctx h4 1) = 10) by exact T1.
    rewrite K5, K6. change (BKTimeSub 10 10) with (Ok 0). cbn [bind].
    change (if BKTimeIsLessFUInt20 0 (BK_INT_MAX / 3) then BKTimeGetFUInt20 0 else BK_INT_MAX / 3) with 0.
    cbn [advance_loop]. change (10 =? NULL) with false. cbv iota beta. rewrite L1. cbn [c_time c_next].
    change (BKTimeAddFUInt20 0 0) with (Ok 0). cbn [bind]. change (0 =? NULL) with true. cbv iota beta. cbn [bind].
    set (h5 := set_clock h4 10 _). assert (K7 : x_currentTime (h_ctx h5 1) = 10) by exact T4. rewrite K7.
    change (BKTimeAddFUInt20 10 0) with (Ok 10). cbn [bind]. eexists _, _. split; [reflexivity|].
    unfold stuck. cbn [set_ctx h_ctx h_clock]. unfold pupd. cbn [Z.eqb Pos.eqb ctx_set_time x_firstClock x_currentTime].
    assert (K8 : x_firstClock (h_ctx h5 1) = 10) by exact T1. rewrite K8.
    unfold h5. cbn [set_clock h_clock]. unfold pupd. rewrite Z.eqb_refl. cbn. repeat split; lia. }
  destruct E as (h3 & tr3 & -> & S). cbn [bind]. change (u32 (0 + 0)) with 0.
  rewrite (stuck_forever (Datatypes.S (Datatypes.S fuel)) ex_oracle 1 10 endTime ltac:(lia) n h3 tr3 0 S ltac:(lia) ltac:(lia)). reflexivity.
Qed.

(** A clock with period 10 attached at time 100 ticks once and, although the
    context runs for another 10000, not again. *)
Theorem late_clock_stops_refuted : exists h0 h1 h2 h3 tr1 tr,
  lrun 9 (fresh_heap (fun c => if c =? 10 then 100 else 10) ex_cb (fun _ => 1) 0 0) [OAttachClock 10 1 NULL] = Ok (h0, [0]) /\
  run_ends 100 9 ex_oracle h0 [] 1 [100] = Ok (h1, tr1) /\
  lstep 9 h1 (OAttachClock 11 1 NULL) = Ok (h2, 0) /\
  run_ends 1000 9 ex_oracle h2 tr1 1 [10000] = Ok (h3, tr) /\ clock_trace 11 tr = [100].
Proof.
  assert (T : match lrun 9 (fresh_heap (fun c => if c =? 10 then 100 else 10) ex_cb (fun _ => 1) 0 0) [OAttachClock 10 1 NULL] with
    | Ok (h0, codes) => codes = [0] /\ match run_ends 100 9 ex_oracle h0 [] 1 [100] with
      | Ok (h1, tr1) => match lstep 9 h1 (OAttachClock 11 1 NULL) with
        | Ok (h2, c2) => c2 = 0 /\ match run_ends 1000 9 ex_oracle h2 tr1 1 [10000] with
          | Ok (_, tr) => clock_trace 11 tr = [100] | Err _ => False end
        | Err _ => False end
      | Err _ => False end
    | Err _ => False end) by (vm_compute; repeat split).
  destruct (lrun 9 _ _) as [[h0 codes]|]; [|contradiction]. destruct T as (-> & T).
  destruct (run_ends 100 _ _ _ _ _ _) as [[h1 tr1]|] eqn:E1; [|contradiction].
  destruct (lstep 9 h1 _) as [[h2 c2]|] eqn:E2; [|contradiction]. destruct T as (-> & T).
  destruct (run_ends 1000 _ _ _ _ _ _) as [[h3 tr]|] eqn:E3; [|contradiction].
  exists h0, h1, h2, h3, tr1, tr. auto.
Qed.

(** ** C54: disposing a context *)

(** All units and clocks are detached if no divider was attached to the master
    clock directly. Missing: dividers of the context's groups, see below. *)
Theorem context_dispose_partial per cb dv delta current ops s codes fuel0 fuel x master D :
  spec_run empty_lists ops s codes -> (length ops <= fuel0)%nat -> x <> 0 -> master <> 0 ->
  l_divs s (GClock master) = [] -> (forall y, y <> 0 -> y <> x -> ~ In master (l_clocks s y)) ->
  (forall g, (length (l_divs s g) <= D)%nat) -> (length (l_units s x) <= fuel)%nat -> (length (l_clocks s x) + D <= fuel)%nat ->
  exists h h' s', lrun fuel0 (fresh_heap per cb dv delta current) ops = Ok (h, codes) /\
    BKContextDisposeObject fuel h x master = Ok h' /\ rep h' s' /\ l_clocks s' x = [] /\ l_units s' x = [] /\
    (forall c, In c (l_clocks s x) -> c_ctx (h_clock h' c) = 0) /\ (forall u, In u (l_units s x) -> u_ctx (h_unit h' u) = 0) /\
    (forall y, y <> x -> l_clocks s' y = l_clocks s y /\ l_units s' y = l_units s y).
Proof.
  intros SR F Hx Hm ED NM HD HU HC.
  destruct (lrun_ok ops fuel0 _ _ _ _ O (rep_fresh per cb dv delta current) ltac:(intros; cbn; lia) F SR) as (h & E & R).
  unfold BKContextDisposeObject.
  destruct (fam_dll _ _ _ _ _ _ _ (rp_units _ _ R) x Hx) as (F1 & _). cbv beta in F1.
  destruct (detach_units_ok x Hx (l_units s x) h s fuel R eq_refl HU) as (h1 & s1 & E1 & R1 & A1 & A2 & A3 & A4).
  destruct (fam_dll _ _ _ _ _ _ _ (rp_clocks _ _ R1) x Hx) as (F2 & _). cbv beta in F2.
  destruct (detach_clocks_ok x D Hx (l_clocks s1 x) h1 s1 fuel R1 eq_refl ltac:(rewrite A2; exact HC) ltac:(rewrite A3; exact HD))
    as (h2 & s2 & E2 & R2 & B1 & B2 & B3 & B4).
  destruct (clock_dispose_ok h2 s2 master fuel R2 Hm ltac:(rewrite B3, A3; exact ED)) as (h3 & E3 & [(y & l1 & l2 & Hy & EL & R')|(N & R')]).
  - exfalso. destruct (Z.eq_dec y x) as [->|NE]; [rewrite B1 in EL; destruct l1; discriminate|].
    rewrite B4, A2 in EL by exact NE. apply (NM y Hy NE). rewrite EL. apply in_elt.
  - exists h, h3, s2. split; [exact E|]. rewrite F1, E1. cbn [bind]. rewrite F2, E2. cbn [bind]. split; [exact E3|]. split; [exact R'|].
    split; [exact B1|]. split; [rewrite B2; exact A1|]. split; [|split].
    + intros c Ic. destruct (attached _ _ _ _ (rp_clocks _ _ R) Hx Ic) as (Ec & C0).
      apply (not_attached _ _ _ (rp_clocks _ _ R') C0). intros z Hz Iz. destruct (Z.eq_dec z x) as [->|NE]; [rewrite B1 in Iz; contradiction|].
      rewrite B4, A2 in Iz by exact NE. destruct (attached _ _ _ _ (rp_clocks _ _ R) Hz Iz). congruence.
    + intros u Iu. destruct (Z.eq_dec (u_ctx (h_unit h3 u)) 0) as [E0|E0]; [exact E0|]. exfalso.
      apply (fam_mem _ _ _ _ _ _ _ (rp_units _ _ R) x u Hx) in Iu as (U0 & U1).
      assert (I3 : In u (l_units s2 (u_ctx (h_unit h3 u)))) by (apply (fam_mem _ _ _ _ _ _ _ (rp_units _ _ R')); auto).
      destruct (Z.eq_dec (u_ctx (h_unit h3 u)) x) as [EX|NX]; [rewrite EX, B2, A1 in I3; contradiction|].
      rewrite B2, A4 in I3 by exact NX. apply (fam_mem _ _ _ _ _ _ _ (rp_units _ _ R) _ u E0) in I3 as (_ & I3). congruence.
    + intros z Hz. rewrite B4, A2, B2, A4 by exact Hz. auto.
Qed.

(** A track (its divider belongs to the beat group) still refers to the context
    after the context is disposed, and cannot be attached to another context. *)
Theorem context_dispose_refuted : exists h h',
  lrun 9 (fresh_heap ex_per ex_cb (fun _ => 1) 0 0) [OAttachUnit 30 1; OAttachDiv 20 (GBeat 1); OAttachClock 11 1 NULL] = Ok (h, [0; 0; 0]) /\
  BKContextDisposeObject 9 h 1 11 = Ok h' /\ u_ctx (h_unit h' 30) = 0 /\
  d_group (h_div h' 20) = Some (GBeat 1) /\ lstep 9 h' (OAttachDiv 20 (GBeat 2)) = Ok (h', BK_INVALID_STATE).
Proof.
  assert (T : match lrun 9 (fresh_heap ex_per ex_cb (fun _ => 1) 0 0) [OAttachUnit 30 1; OAttachDiv 20 (GBeat 1); OAttachClock 11 1 NULL] with
    | Ok (h, codes) => codes = [0; 0; 0] /\ match BKContextDisposeObject 9 h 1 11 with
      | Ok h' => u_ctx (h_unit h' 30) = 0 /\ d_group (h_div h' 20) = Some (GBeat 1)
      | Err _ => False end
    | Err _ => False end) by (vm_compute; repeat split).
  destruct (lrun 9 _ _) as [[h codes]|]; [|contradiction]. destruct T as (-> & T).
  destruct (BKContextDisposeObject 9 h 1 11) as [h'|] eqn:E1; [|contradiction]. destruct T as (T1 & T2).
  exists h, h'. repeat split; auto. cbn [lstep]. unfold BKDividerAttachToGroup. rewrite T2. reflexivity.
Qed.

Example context_dispose_ex : exists h h' s', lrun 6 (fresh_heap ex_per ex_cb (fun _ => 1) 0 0) ex_ops = Ok (h, [0; 0; 0; 0; 0; 0]) /\
    BKContextDisposeObject 6 h 1 11 = Ok h' /\ rep h' s' /\ l_clocks s' 1 = [] /\ l_units s' 1 = [] /\
    (forall c, In c (l_clocks ex_lists 1) -> c_ctx (h_clock h' c) = 0) /\ (forall u, In u (l_units ex_lists 1) -> u_ctx (h_unit h' u) = 0) /\
    (forall y, y <> 1 -> l_clocks s' y = l_clocks ex_lists y /\ l_units s' y = l_units ex_lists y).
Proof.
  apply (context_dispose_partial _ _ _ _ _ ex_ops ex_lists _ 6 6 1 11 1 ex_spec); try (cbn; lia).
  - reflexivity.
  - intros y Hy NE. cbn. replace (y =? 1) with false by lia. tauto.
  - intros [c|z|z]; cbn; repeat match goal with |- context [if ?b then _ else _] => destruct b end; cbn; lia.
Qed.

(** [BKContextAttachDivider] reports success for a divider that is attached
    elsewhere and stays there. *)
Theorem context_attach_divider_refuted : exists h h',
  lrun 9 (fresh_heap ex_per ex_cb (fun _ => 1) 0 0) [OAttachDiv 20 (GBeat 2)] = Ok (h, [0]) /\
  BKContextAttachDivider 9 h 1 11 20 1 = Ok (h', 0) /\ d_group (h_div h' 20) = Some (GBeat 2) /\ g_first (h_group h' (GBeat 1)) = 0.
Proof.
  assert (T : match lrun 9 (fresh_heap ex_per ex_cb (fun _ => 1) 0 0) [OAttachDiv 20 (GBeat 2)] with
    | Ok (h, codes) => codes = [0] /\ match BKContextAttachDivider 9 h 1 11 20 1 with
      | Ok (h', c) => c = 0 /\ d_group (h_div h' 20) = Some (GBeat 2) /\ g_first (h_group h' (GBeat 1)) = 0
      | Err _ => False end
    | Err _ => False end) by (vm_compute; repeat split).
  destruct (lrun 9 _ _) as [[h codes]|]; [|contradiction]. destruct T as (-> & T).
  destruct (BKContextAttachDivider 9 h 1 11 20 1) as [[h' c]|] eqn:E1; [|contradiction]. destruct T as (-> & T1 & T2).
  exists h, h'. auto.
Qed.

(** Unknown types and contexts without master clock period are rejected without effect. *)
Theorem context_attach_divider_rejects fuel h x master d type :
  ((0 = type \/ 1 = type) -> c_period (h_clock h master) <= 0 ->
     BKContextAttachDivider fuel h x master d type = Ok (h, BK_INVALID_VALUE)) /\
  (type <> 0 -> type <> 1 -> BKContextAttachDivider fuel h x master d type = Ok (h, BK_INVALID_ATTRIBUTE)).
Proof.
  split.
  - intros [<-|<-] Hp; cbn [BKContextAttachDivider]; unfold BKTimeIsGreater;
      destruct (Z.gtb_spec (c_period (h_clock h master)) 0); lia || reflexivity.
  - intros H0 H1. unfold BKContextAttachDivider. destruct type as [|[q|q|]|q]; try lia; reflexivity.
Qed.
Example context_attach_divider_rejects_example :
  BKContextAttachDivider 9 (fresh_heap ex_per ex_cb (fun _ => 1) 0 0) 1 11 20 2 = Ok (fresh_heap ex_per ex_cb (fun _ => 1) 0 0, BK_INVALID_ATTRIBUTE).
Proof. reflexivity. Qed.

(** A free divider goes to the end of the requested group; a free master clock
    goes to the front of the context's clocks, an attached one stays. *)
Theorem context_attach_divider_partial per cb dv delta current ops s codes fuel x master d type :
  spec_run empty_lists ops s codes -> (length ops < fuel)%nat -> x <> 0 -> master <> 0 -> d <> 0 ->
  type = 0 \/ type = 1 -> ~ In BK_FIRST_ELEMENT_PTR (l_clocks s x) ->
  (forall g, (length (l_divs s g) < fuel)%nat) ->
  (forall g, ~ In d (l_divs s g)) ->
  exists h, lrun fuel (fresh_heap per cb dv delta current) ops = Ok (h, codes) /\
    (0 < c_period (h_clock h master) ->
     exists h' s', BKContextAttachDivider fuel h x master d type = Ok (h', 0) /\ rep h' s' /\
       (forall g, l_divs s' g = if gid_eqb g (if type =? 0 then GEffect x else GBeat x) then l_divs s g ++ [d] else l_divs s g) /\
       ((forall y, y <> 0 -> ~ In master (l_clocks s y)) -> l_clocks s' x = master :: l_clocks s x)).
Proof.
  intros SR F Hx Hm Hd HT HFE HG N.
  destruct (lrun_ok ops fuel _ _ _ _ O (rep_fresh per cb dv delta current) ltac:(intros; cbn; lia) ltac:(lia) SR) as (h & E & R).
  exists h. split; [exact E|]. intros HP.
  set (g := if type =? 0 then GEffect x else GBeat x) in *.
  assert (EQ : BKContextAttachDivider fuel h x master d type =
    (let* (h, _) := BKDividerAttachToGroup h d g in
     let* (h, _) := BKClockAttach fuel h master x (x_firstClock (h_ctx h x)) in Ok (h, 0))).
  { unfold BKContextAttachDivider, BKTimeIsGreater. replace (c_period (h_clock h master) >? 0) with true by lia.
    destruct HT as [-> | ->]; reflexivity. }
  destruct (div_attach_ok h s d g R Hd N) as (h1 & E1 & R1).
  rewrite EQ, E1. cbn [bind].
  assert (DL : forall k, l_divs (put_divs s g (l_divs s g ++ [d])) k = if gid_eqb k g then l_divs s k ++ [d] else l_divs s k).
  { intros k. cbn. destruct (gid_eqb k g) eqn:EK; [|reflexivity]. destruct (gid_eqb_spec k g); [subst k; reflexivity|discriminate]. }
  destruct (Z.eq_dec (c_ctx (h_clock h1 master)) 0) as [C0|C0].
  - assert (NM : forall y, y <> 0 -> ~ In master (l_clocks s y)).
    { intros y Hy Iy. destruct (attached _ _ _ _ (rp_clocks _ _ R1) Hy Iy). congruence. }
    assert (LF : (length (l_divs (put_divs s g (l_divs s g ++ [d])) (GClock master)) <= fuel)%nat).
    { rewrite DL. pose proof (HG (GClock master)). destruct (gid_eqb _ _); [rewrite app_length; cbn|]; lia. }
    destruct (fam_dll _ _ _ _ _ _ _ (rp_clocks _ _ R1) x Hx) as (D1 & _). cbv beta in D1. rewrite D1.
    change (l_clocks (put_divs s g (l_divs s g ++ [d])) x) with (l_clocks s x).
    destruct (l_clocks s x) as [|b l2] eqn:EL.
    + destruct (clock_attach_last fuel h1 _ master x R1 Hm Hx NM LF NULL (or_introl eq_refl)) as (h2 & E2 & R2).
      cbn [hd]. unfold NULL in E2. rewrite E2. cbn [bind]. eexists _, _. split; [reflexivity|]. split; [exact R2|].
      split; [intros k; apply DL|]. intros _. cbn. rewrite Z.eqb_refl. rewrite EL. reflexivity.
    + destruct (clock_attach_before fuel h1 _ master x b [] l2 R1 Hm Hx NM LF EL b) as (h2 & E2 & R2).
      { left. split; [reflexivity|]. intros ->. apply HFE. left. reflexivity. }
      cbn [hd]. rewrite E2. cbn [bind]. eexists _, _. split; [reflexivity|]. split; [exact R2|].
      split; [intros k; apply DL|]. intros _. cbn. rewrite Z.eqb_refl. reflexivity.
  - unfold BKClockAttach, NULL. replace (c_ctx (h_clock h1 master) =? 0) with false by lia. cbn [bind].
    eexists _, _. split; [reflexivity|]. split; [exact R1|]. split; [exact DL|]. intros NM.
    exfalso. apply C0. apply (not_attached _ _ _ (rp_clocks _ _ R1) Hm NM).
Qed.

Example context_attach_divider_ex : exists h,
  lrun 9 (fresh_heap ex_per ex_cb (fun _ => 1) 0 0) ex_ops = Ok (h, [0; 0; 0; 0; 0; 0]) /\
  (0 < c_period (h_clock h 12) ->
   exists h' s', BKContextAttachDivider 9 h 1 12 22 1 = Ok (h', 0) /\ rep h' s' /\
     (forall g, l_divs s' g = if gid_eqb g (GBeat 1) then l_divs ex_lists g ++ [22] else l_divs ex_lists g) /\
     ((forall y, y <> 0 -> ~ In 12 (l_clocks ex_lists y)) -> l_clocks s' 1 = [12; 11; 10])).
Proof.
  apply (context_attach_divider_partial ex_per ex_cb (fun _ => 1) 0 0 ex_ops ex_lists _ 9 1 12 22 1 ex_spec); try (cbn; lia).
  - cbn. unfold BK_FIRST_ELEMENT_PTR. lia.
  - intros [c|z|z]; cbn; repeat match goal with |- context [if ?b then _ else _] => destruct b end; cbn; lia.
  - intros [c|z|z]; cbn; repeat match goal with |- context [if ?b then _ else _] => destruct b end; cbn; lia.
Qed.

Print Assumptions clocks_tick_on_schedule.
Print Assumptions clocks_tick_at_multiples.
Print Assumptions divider_fires_partial.
Print Assumptions divider_fires_every_nth_partial.
Print Assumptions divider_fires_refuted.
Print Assumptions divider_overflow_refuted.
Print Assumptions dividers_in_context_partial.
Print Assumptions lists_refine_partial.
Print Assumptions divider_unit_lists.
Print Assumptions clock_dispose_refuted.
Print Assumptions clock_dispose_partial.
Print Assumptions rejected_attach_refuted.
Print Assumptions rejected_attach_partial.
Print Assumptions clock_reset_hangs_refuted.
Print Assumptions late_clock_stops_refuted.
Print Assumptions context_dispose_partial.
Print Assumptions context_dispose_refuted.
Print Assumptions context_attach_divider_refuted.
Print Assumptions context_attach_divider_partial.
Print Assumptions divider_init_fires_partial.
Print Assumptions context_attach_divider_rejects.
