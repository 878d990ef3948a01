(** Property C122: clocks and dividers after [BKContextReset]. *)
From Verif Require Import CIntFacts TimeModel ClockModel ListSpec DList Family ListProofs ClockSpec ClockProofs ClockProofs2 PropertiesClock ContextReset.
Ltac Zify.zify_post_hook ::= idtac.

Lemma seq_plus : forall a n, seq a n = map (fun i => (a + i)%nat) (seq 0 n).
Proof.
  intros a n. revert a. induction n as [|n IH]; intros a; [reflexivity|]. cbn [seq map]. rewrite (IH (S a)), (IH 1%nat), map_map. f_equal; [lia|]. apply map_ext. intros i. lia.
Qed.

(** Clocks, dividers and units are attached in any order, the context runs, is
    reset, and runs again.  After the reset every clock ticks on the schedule of a
    new clock with the period its callbacks have left, and every divider attached
    to a clock fires as a new divider with the count its callback has left.
    Missing: the dividers attached to the context itself. *)
Theorem C122_context_reset_partial per cb dv ops s codes o x ends1 ends2 fuel n D :
  spec_run empty_lists ops s codes ->
  x <> 0 -> l_clocks s x <> [] ->
  (forall c, In c (l_clocks s x) -> 0 < per c < 2 ^ 62) ->
  (forall c k t, 0 <= t < 2 ^ 62 -> o_next o c k t < 2 ^ 62) ->
  (forall d, 1 <= dv d < 2 ^ 31) ->
  (forall d t v, 1 <= v < 2 ^ 31 -> 0 <= o_div o d t v < 2 ^ 31) ->
  (forall e, In e ends1 \/ In e ends2 -> 0 <= e < 2 ^ 31 /\ e <= Z.of_nat n) ->
  Zsum ends1 < 2 ^ 61 -> Zsum ends2 < 2 ^ 61 ->
  (forall g, (length (l_divs s g) <= D)%nat) -> (length ops + length (l_clocks s x) + D <= fuel)%nat -> (length (l_units s x) <= fuel)%nat ->
  exists h0 h1 h2 h3 tr1 tr2 now1 now2,
    lrun fuel (fresh_heap per cb dv 0 0) ops = Ok (h0, codes) /\
    run_ends n fuel o h0 [] x ends1 = Ok (h1, tr1) /\ Zsum ends1 <= now1 < Zsum ends1 + 715827882 /\
    BKContextReset fuel h1 x = Ok h2 /\
    run_ends n fuel o h2 [] x ends2 = Ok (h3, tr2) /\ Zsum ends2 <= now2 < Zsum ends2 + 715827882 /\
    forall c, In c (l_clocks s x) -> exists k1 k2, let p2 := snd (sched o c (per c) k1) in
      (forall i, (i < k1)%nat <-> tick_time o c (per c) i < now1) /\ (forall i, (i < k2)%nat <-> tick_time o c p2 i < now2) /\
      clock_trace c tr1 = map (tick_time o c (per c)) (seq 0 k1) /\
      clock_trace c tr2 = map (tick_time o c p2) (seq 0 k2) /\
      forall d, In d (l_divs s (GClock c)) -> exists m1 m2,
        let f1 := firing (o_div o d) (tick_time o c (per c)) (dv d) in let f2 := firing (o_div o d) (tick_time o c p2) (snd (f1 m1)) in
        (forall j, (j < m1)%nat <-> (fst (f1 j) < k1)%nat) /\ (forall j, (j < m2)%nat <-> (fst (f2 j) < k2)%nat) /\
        div_trace d tr1 = map (fun j => tick_time o c (per c) (fst (f1 j))) (seq 0 m1) /\
        div_trace d tr2 = map (fun j => tick_time o c p2 (fst (f2 j))) (seq 0 m2).
Proof.
  intros SR Hx NE HP HN HV HO HE HS1 HS2 HD HF HU.
  destruct (run_reset_run per cb dv ops s codes o x ends1 ends2 fuel n D SR Hx NE HP HN HV HO HE HS1 HS2 HD HF HU)
    as (h0 & h1 & h2 & h3 & tr1 & tr2 & now1 & now2 & E0 & Q0 & E1 & N1 & E2 & E3 & N2 & RI1 & RI3 & DV).
  exists h0, h1, h2, h3, tr1, tr2, now1, now2. split; [exact E0|]. split; [exact E1|]. split; [exact N1|]. split; [exact E2|]. split; [exact E3|]. split; [exact N2|].
  intros c Hc. assert (RH : run_hyps o x s per D) by (constructor; auto).
  destruct RI1 as (GI1 & PN1), RI3 as (GI3 & PN3). destruct (PN1 c Hc) as (k1 & C1 & P1 & P2). destruct (PN3 c Hc) as (k2 & C3 & P3 & P4).
  pose proof (cs_period _ _ _ _ _ _ _ C1) as PE. cbv beta in C3, P3, P4. destruct C1 as [_ _ _ _ T1]. destruct C3 as [_ _ _ _ T3]. cbv beta in T3. rewrite PE in T3, P3, P4. fold (tick_time o c (per c)) in T1.
  exists k1, k2. cbv zeta. set (p2 := snd (sched o c (per c) k1)) in *.
  assert (MON : forall q, 0 < q -> forall i j, (i <= j)%nat -> tick_time o c q i <= tick_time o c q j /\ 0 < snd (sched o c q j)).
  { intros q Hq i j Hij. induction j as [|j IH].
    - replace i with O by lia. cbn. lia.
    - assert (ST : tick_time o c q j < tick_time o c q (S j) \/ ~ 0 < snd (sched o c q j)).
      { unfold tick_time. cbn [sched]. destruct (sched o c q j) as [t p]. cbn [fst snd]. destruct (Z.gtb_spec (o_next o c (u32 (Z.of_nat j)) t) t); cbn [fst snd]; lia. }
      assert (PJ : 0 < snd (sched o c q j)).
      { clear - Hq. induction j as [|j IH]; cbn [sched]; [exact Hq|]. destruct (sched o c q j) as [t p]. cbn [snd] in *. destruct (Z.gtb_spec (o_next o c (u32 (Z.of_nat j)) t) t); cbn [snd]; lia. }
      split.
      + destruct (Nat.eq_dec i (S j)) as [->|]; [lia|]. destruct (IH ltac:(lia)) as (I1 & _). lia.
      + revert PJ. cbn [sched]. destruct (sched o c q j) as [t p]. cbn [snd]. intros PJ. destruct (Z.gtb_spec (o_next o c (u32 (Z.of_nat j)) t) t); cbn [snd]; lia. }
  pose proof (HP c Hc) as HPc. assert (Hp2 : 0 < p2) by (apply (MON (per c) ltac:(lia) k1 k1 ltac:(lia))).
  assert (IFF : forall q k now, 0 < q -> (forall i, (i < k)%nat -> tick_time o c q i < now) -> now <= tick_time o c q k -> forall i, (i < k)%nat <-> tick_time o c q i < now).
  { intros q k now Hq A B i. split; [apply A|]. intros L. destruct (Nat.lt_ge_cases i k) as [|G]; [assumption|]. destruct (MON q Hq k i G). lia. }
  split; [apply IFF; [lia|exact P1|exact P2]|]. split; [apply IFF; [lia|exact P3|exact P4]|].
  split; [exact T1|]. split; [exact T3|]. intros d Hd.
  assert (FMON : forall ff t v i j, (i <= j)%nat -> (fst (firing ff t v i) <= fst (firing ff t v j))%nat).
  { intros ff t v i j Hij. induction j as [|j IH]; [replace i with O by lia; lia|]. destruct (Nat.eq_dec i (S j)) as [->|]; [lia|]. specialize (IH ltac:(lia)). cbn [firing]. destruct (firing ff t v j) as [a b]. cbn [fst] in *. lia. }
  assert (FIFF : forall ff t v m k, (forall j, (j < m)%nat -> (fst (firing ff t v j) < k)%nat) -> (k <= fst (firing ff t v m))%nat -> forall j, (j < m)%nat <-> (fst (firing ff t v j) < k)%nat).
  { intros ff t v m k A B j. split; [apply A|]. intros L. destruct (Nat.lt_ge_cases j m) as [|G]; [assumption|]. specialize (FMON ff t v m j G). lia. }
  destruct (gi_div _ _ _ _ _ _ _ _ GI1 (GClock c) d Hd) as (K1 & _). rewrite (drive_one cb c (GClock c) tr1 (or_introl eq_refl)), T1 in K1.
  destruct (gi_div _ _ _ _ _ _ _ _ GI3 (GClock c) d Hd) as (K3 & _). rewrite (drive_one cb c (GClock c) tr2 (or_introl eq_refl)), T3 in K3.
  destruct (q_div _ _ _ _ Q0 d) as (D1 & D2 & D3).
  destruct (firing_run (o_div o d) (tick_time o c (per c)) (dv d) (h_div h0 d) (HO d) (HV d) D1 D2 D3 k1) as (d1 & m1 & F1 & F2 & F3 & _ & F5 & F6 & F7).
  pose proof (eq_trans (eq_sym K1) F1) as F1'. assert (X1 : h_div h1 d = d1) by congruence.
  assert (X2 : h_div h2 d = div_rewound d1) by (rewrite DV, (of_clocks_in _ _ c d Hc Hd), X1; reflexivity).
  destruct (firing_run (o_div o d) (tick_time o c p2) (snd (firing (o_div o d) (tick_time o c (per c)) (dv d) m1)) (h_div h2 d) (HO d)) with (k := k2) as (d3 & m2 & G1 & _ & _ & _ & G5 & G6 & _).
  { rewrite <- F3. exact (proj1 F7). }
  { rewrite X2. exact F2. }
  { rewrite X2. exact F3. }
  { rewrite X2. reflexivity. }
  pose proof (eq_trans (eq_sym K3) G1) as G1'.
  exists m1, m2. split; [apply FIFF; assumption|]. split; [apply FIFF; assumption|]. split; congruence.
Qed.

(** With callbacks which move nothing the reset context is as new: clocks tick at
    the multiples of their periods, dividers of clocks on every n-th tick from the first. *)
Theorem C122_plain_partial per cb dv ops s codes o x ends1 ends2 fuel n D :
  spec_run empty_lists ops s codes ->
  x <> 0 -> l_clocks s x <> [] ->
  (forall c, In c (l_clocks s x) -> 0 < per c < 2 ^ 62) ->
  (forall c k t, o_next o c k t <= t) ->
  (forall d, 1 <= dv d < 2 ^ 31) ->
  (forall d t v, o_div o d t v = v) ->
  (forall e, In e ends1 \/ In e ends2 -> 0 <= e < 2 ^ 31 /\ e <= Z.of_nat n) ->
  Zsum ends1 < 2 ^ 61 -> Zsum ends2 < 2 ^ 61 ->
  (forall g, (length (l_divs s g) <= D)%nat) -> (length ops + length (l_clocks s x) + D <= fuel)%nat -> (length (l_units s x) <= fuel)%nat ->
  exists h0 h1 h2 h3 tr1 tr2,
    lrun fuel (fresh_heap per cb dv 0 0) ops = Ok (h0, codes) /\
    run_ends n fuel o h0 [] x ends1 = Ok (h1, tr1) /\
    BKContextReset fuel h1 x = Ok h2 /\
    run_ends n fuel o h2 [] x ends2 = Ok (h3, tr2) /\
    forall c, In c (l_clocks s x) ->
      (forall t, t < Zsum ends2 -> (In t (clock_trace c tr2) <-> 0 <= t /\ (per c | t))) /\
      forall d, In d (l_divs s (GClock c)) -> forall t, t < Zsum ends2 -> (In t (div_trace d tr2) <-> 0 <= t /\ (per c * dv d | t)).
Proof.
  intros SR Hx NE HP HN HV HO HE HS1 HS2 HD HF HU.
  destruct (C122_context_reset_partial per cb dv ops s codes o x ends1 ends2 fuel n D SR Hx NE HP ltac:(intros c k t Ht; specialize (HN c k t); lia) HV ltac:(intros d t v Hv; rewrite HO; lia) HE HS1 HS2 HD HF HU)
    as (h0 & h1 & h2 & h3 & tr1 & tr2 & now1 & now2 & E0 & E1 & N1 & E2 & E3 & N2 & C).
  exists h0, h1, h2, h3, tr1, tr2. split; [exact E0|]. split; [exact E1|]. split; [exact E2|]. split; [exact E3|]. intros c Hc.
  destruct (C c Hc) as (k1 & k2 & _ & A2 & _ & A4 & A5). cbv zeta in A2, A4, A5. pose proof (HP c Hc) as HPc.
  assert (SC : forall i, sched o c (per c) i = (Z.of_nat i * per c, per c)) by (apply sched_const, HN).
  rewrite SC in A2, A4, A5. cbn [snd] in A2, A4, A5.
  assert (TT : forall i, tick_time o c (per c) i = Z.of_nat i * per c) by (intros i; unfold tick_time; rewrite SC; reflexivity).
  split.
  - intros t Ht. rewrite A4, in_map_iff. split.
    + intros (i & <- & _). rewrite TT. split; [nia|]. exists (Z.of_nat i). reflexivity.
    + intros (H0 & (q & ->)). exists (Z.to_nat q). assert (0 <= q) by nia. split; [rewrite TT; f_equal; lia|]. apply in_seq. split; [lia|]. cbn [plus]. apply A2. rewrite TT. replace (Z.of_nat (Z.to_nat q)) with q by lia. lia.
  - intros d Hd t Ht. destruct (A5 d Hd) as (m1 & m2 & _ & B2 & _ & B4). specialize (HV d).
    assert (FC : forall j, firing (o_div o d) (tick_time o c (per c)) (dv d) j = ((j * Z.to_nat (dv d))%nat, dv d)) by (apply firing_const; [intros; apply HO|lia]).
    rewrite FC in B2, B4. cbn [snd] in B2, B4. rewrite B4, in_map_iff. split.
    + intros (j & <- & _). rewrite FC, TT. cbn [fst]. rewrite Nat2Z.inj_mul, Z2Nat.id by lia. split; [nia|]. exists (Z.of_nat j). ring.
    + intros (H0 & (q & ->)). exists (Z.to_nat q). assert (0 < per c * dv d) by nia. assert (0 <= q) by nia. rewrite FC, TT. cbn [fst]. rewrite Nat2Z.inj_mul, !Z2Nat.id by lia. split; [ring|].
      apply in_seq. split; [lia|]. cbn [plus]. apply B2. rewrite FC. cbn [fst]. apply A2. rewrite TT. rewrite Nat2Z.inj_mul, !Z2Nat.id by lia. lia.
Qed.

(** The dividers of the context itself ([BKContextAttachDivider]) go on from where
    they were: with [k1] ticks before the reset, a divider with count [v] fires after
    it on the [i]-th tick exactly if [v] divides [k1 + i]. *)
Theorem C122_context_dividers_go_on per cb dv ops s codes o x ends1 ends2 fuel n D c g :
  spec_run empty_lists ops s codes ->
  x <> 0 -> In c (l_clocks s x) ->
  (forall c, In c (l_clocks s x) -> 0 < per c < 2 ^ 62) ->
  (forall c k t, o_next o c k t <= t) ->
  (forall d, 1 <= dv d < 2 ^ 31) ->
  (forall d t v, o_div o d t v = v) ->
  (forall e, In e ends1 \/ In e ends2 -> 0 <= e < 2 ^ 31 /\ e <= Z.of_nat n) ->
  Zsum ends1 < 2 ^ 61 -> Zsum ends2 < 2 ^ 61 ->
  (forall g, (length (l_divs s g) <= D)%nat) -> (length ops + length (l_clocks s x) + D <= fuel)%nat -> (length (l_units s x) <= fuel)%nat ->
  (exists x', cb c = CbMaster x' /\ (forall c', cb c' = CbMaster x' -> c' = c) /\ (g = GBeat x' \/ g = GEffect x')) ->
  exists h0 h1 h2 h3 tr1 tr2,
    lrun fuel (fresh_heap per cb dv 0 0) ops = Ok (h0, codes) /\
    run_ends n fuel o h0 [] x ends1 = Ok (h1, tr1) /\
    BKContextReset fuel h1 x = Ok h2 /\
    run_ends n fuel o h2 [] x ends2 = Ok (h3, tr2) /\
    let k1 := length (clock_trace c tr1) in
    forall d, In d (l_divs s g) -> forall i, Z.of_nat i * per c < Zsum ends2 ->
      (In (Z.of_nat i * per c) (div_trace d tr2) <-> (dv d | Z.of_nat (k1 + i))).
Proof.
  intros SR Hx Hc HP HN HV HO HE HS1 HS2 HD HF HU HG.
  assert (NE : l_clocks s x <> []) by (intros E; rewrite E in Hc; contradiction).
  destruct (run_reset_run per cb dv ops s codes o x ends1 ends2 fuel n D SR Hx NE HP ltac:(intros c' k t Ht; specialize (HN c' k t); lia) HV ltac:(intros d t v Hv; rewrite HO; lia) HE HS1 HS2 HD HF HU)
    as (h0 & h1 & h2 & h3 & tr1 & tr2 & now1 & now2 & E0 & Q0 & E1 & N1 & E2 & E3 & N2 & RI1 & RI3 & DV).
  exists h0, h1, h2, h3, tr1, tr2. split; [exact E0|]. split; [exact E1|]. split; [exact E2|]. split; [exact E3|]. cbv zeta. intros d Hd.
  destruct RI1 as (GI1 & PN1), RI3 as (GI3 & PN3). destruct (PN1 c Hc) as (k1 & C1 & P1 & P2). destruct (PN3 c Hc) as (k2 & C3 & P3 & P4).
  pose proof (cs_period _ _ _ _ _ _ _ C1) as PE. cbv beta in C3, P3, P4. destruct C1 as [_ _ _ _ T1]. destruct C3 as [_ _ _ _ T3]. cbv beta in T3.
  pose proof (HP c Hc) as HPc. specialize (HV d).
  assert (SC : forall i, sched o c (per c) i = (Z.of_nat i * per c, per c)) by (apply sched_const, HN).
  rewrite PE in T3, P3, P4. rewrite SC in T3, P3, P4. cbn [snd] in T3, P3, P4. rewrite SC in P4. cbn [fst] in P4.
  assert (ST : map (fun i => fst (sched o c (per c) i)) (seq 0 k1) ++ map (fun i => fst (sched o c (per c) i)) (seq 0 k2) =
               map (fun i => if (i <? k1)%nat then Z.of_nat i * per c else Z.of_nat (i - k1) * per c) (seq 0 (k1 + k2))).
  { rewrite seq_app, map_app. cbn [plus]. f_equal.
    - apply map_ext_in. intros i Hi. apply in_seq in Hi. rewrite SC. replace (i <? k1)%nat with true by (symmetry; apply Nat.ltb_lt; lia). reflexivity.
    - rewrite (seq_plus k1 k2), map_map. apply map_ext. intros i. rewrite SC. replace (k1 + i <? k1)%nat with false by (symmetry; apply Nat.ltb_ge; lia). replace (k1 + i - k1)%nat with i by lia. reflexivity. }
  set (t := fun i => if (i <? k1)%nat then _ else _) in ST.
  assert (S1 : map (fun i => fst (sched o c (per c) i)) (seq 0 k1) = map t (seq 0 k1)).
  { apply map_ext_in. intros i Hi. apply in_seq in Hi. unfold t. rewrite SC. replace (i <? k1)%nat with true by (symmetry; apply Nat.ltb_lt; lia). reflexivity. }
  destruct (gi_div _ _ _ _ _ _ _ _ GI1 g d Hd) as (K1 & _). rewrite (drive_one cb c g tr1 (or_intror HG)), T1 in K1.
  destruct (gi_div _ _ _ _ _ _ _ _ GI3 g d Hd) as (K3 & _). rewrite (drive_one cb c g tr2 (or_intror HG)), T3 in K3.
  assert (X2 : h_div h2 d = h_div h1 d).
  { rewrite DV, (not_of_clocks h1 s (l_clocks s x) g d (gi_rep _ _ _ _ _ _ _ _ GI1) Hd); [reflexivity|]. intros c'. destruct HG as (x' & _ & _ & [-> | ->]); discriminate. }
  rewrite X2 in K3. pose proof (div_iter_app _ _ _ (map (fun i => fst (sched o c (per c) i)) (seq 0 k2)) _ _ K1) as KA. rewrite K3, ST in KA. cbn [bind] in KA. rewrite S1 in K1.
  destruct (q_div _ _ _ _ Q0 d) as (D1 & D2 & D3).
  assert (HO' : forall u v, 1 <= v < 2147483648 -> 0 <= o_div o d u v < 2147483648) by (intros u v Hv; rewrite HO; lia).
  assert (FC : forall j, firing (o_div o d) t (dv d) j = ((j * Z.to_nat (dv d))%nat, dv d)) by (apply firing_const; [intros; apply HO|lia]).
  destruct (firing_run (o_div o d) t (dv d) (h_div h0 d) HO' HV D1 D2 D3 k1) as (d1 & m1 & F1 & _ & _ & _ & F5 & F6 & _).
  destruct (firing_run (o_div o d) t (dv d) (h_div h0 d) HO' HV D1 D2 D3 (k1 + k2)) as (d3 & m3 & G1 & _ & _ & _ & G5 & G6 & _).
  rewrite K1 in F1. rewrite KA in G1. assert (Y1 : div_trace d tr1 = map (fun j => t (fst (firing (o_div o d) t (dv d) j))) (seq 0 m1)) by congruence.
  assert (Y3 : div_trace d tr1 ++ div_trace d tr2 = map (fun j => t (fst (firing (o_div o d) t (dv d) j))) (seq 0 m3)) by congruence.
  assert (M : (m1 <= m3)%nat).
  { destruct (Nat.le_gt_cases m1 m3) as [|L]; [assumption|]. specialize (F5 m3 L). lia. }
  replace m3 with (m1 + (m3 - m1))%nat in Y3 by lia. rewrite seq_app, map_app, <- Y1 in Y3. apply app_inv_head in Y3. cbn [plus] in Y3.
  rewrite FC in F6, G6. cbn [fst] in F6, G6. set (v := Z.to_nat (dv d)) in *. assert (Hv : (1 <= v)%nat) by lia. replace (dv d) with (Z.of_nat v) by lia.
  rewrite T1, map_length, seq_length. intros i Hi. rewrite Y3, in_map_iff. split.
  - intros (j & EJ & IJ). apply in_seq in IJ. rewrite FC in EJ. cbn [fst] in EJ. fold v in EJ. unfold t in EJ.
    assert (JV : (k1 <= j * v)%nat) by nia. replace (j * v <? k1)%nat with false in EJ by (symmetry; apply Nat.ltb_ge; lia).
    assert (EI : (j * v - k1)%nat = i) by nia. replace (k1 + i)%nat with (j * v)%nat by lia. exists (Z.of_nat j). lia.
  - intros (q & EQ). assert (0 <= q) by nia. exists (Z.to_nat q). rewrite FC. cbn [fst]. fold v.
    assert (EV : (Z.to_nat q * v = k1 + i)%nat) by nia. rewrite EV. split.
    + unfold t. replace (k1 + i <? k1)%nat with false by (symmetry; apply Nat.ltb_ge; lia). replace (k1 + i - k1)%nat with i by lia. reflexivity.
    + assert (IK : (i < k2)%nat) by nia. apply in_seq. split.
      * destruct (Nat.le_gt_cases m1 (Z.to_nat q)) as [|L]; [assumption|]. specialize (F5 _ L). rewrite FC in F5. cbn [fst] in F5. fold v in F5. lia.
      * nia.
Qed.

(** Example: the two clocks and the dividers of PropertiesClock.v, one attached to clock 10, one to the context. *)
Example C122_example : exists h0 h1 h2 h3 tr1 tr2,
  lrun 20 (fresh_heap ex_per ex_cb (fun _ => 2) 0 0) ex_ops = Ok (h0, [0; 0; 0; 0; 0; 0]) /\
  run_ends 40 20 ex_oracle h0 [] 1 [15; 10] = Ok (h1, tr1) /\
  BKContextReset 20 h1 1 = Ok h2 /\
  run_ends 40 20 ex_oracle h2 [] 1 [20; 13] = Ok (h3, tr2) /\
  forall c, In c [11; 10] ->
    (forall t, t < 33 -> (In t (clock_trace c tr2) <-> 0 <= t /\ (ex_per c | t))) /\
    forall d, In d (l_divs ex_lists (GClock c)) -> forall t, t < 33 -> (In t (div_trace d tr2) <-> 0 <= t /\ (ex_per c * 2 | t)).
Proof.
  apply (C122_plain_partial ex_per ex_cb (fun _ => 2) ex_ops ex_lists _ ex_oracle 1 [15; 10] [20; 13] 20 40 1 ex_spec).
  - lia.
  - discriminate.
  - intros c _. unfold ex_per. destruct (c =? 10); lia.
  - cbn; lia.
  - intros; lia.
  - reflexivity.
  - cbn. intros e He. lia.
  - cbn; lia.
  - cbn; lia.
  - intros [c|z|z]; cbn; repeat match goal with |- context [if ?b then _ else _] => destruct b end; cbn; lia.
  - cbn; lia.
  - cbn; lia.
Qed.
Example C122_go_on_example : exists h0 h1 h2 h3 tr1 tr2,
  lrun 20 (fresh_heap ex_per ex_cb (fun _ => 2) 0 0) ex_ops = Ok (h0, [0; 0; 0; 0; 0; 0]) /\
  run_ends 40 20 ex_oracle h0 [] 1 [15; 10] = Ok (h1, tr1) /\
  BKContextReset 20 h1 1 = Ok h2 /\
  run_ends 40 20 ex_oracle h2 [] 1 [20; 13] = Ok (h3, tr2) /\
  let k1 := length (clock_trace 11 tr1) in
  forall d, In d (l_divs ex_lists (GBeat 1)) -> forall i, Z.of_nat i * ex_per 11 < 33 ->
    (In (Z.of_nat i * ex_per 11) (div_trace d tr2) <-> (2 | Z.of_nat (k1 + i))).
Proof.
  apply (C122_context_dividers_go_on ex_per ex_cb (fun _ => 2) ex_ops ex_lists _ ex_oracle 1 [15; 10] [20; 13] 20 40 1 11 (GBeat 1) ex_spec).
  - lia.
  - cbn; auto.
  - intros c _. unfold ex_per. destruct (c =? 10); lia.
  - cbn; lia.
  - intros; lia.
  - reflexivity.
  - cbn. intros e He. lia.
  - cbn; lia.
  - cbn; lia.
  - intros [c|z|z]; cbn; repeat match goal with |- context [if ?b then _ else _] => destruct b end; cbn; lia.
  - cbn; lia.
  - cbn; lia.
  - exists 1. split; [reflexivity|]. split; [|auto]. intros c'. unfold ex_cb. destruct (Z.eqb_spec c' 11); [auto|discriminate].
Qed.

(** The same song twice: on both runs the clocks tick at the same times, but the
    divider of the context (21, count 2) fires at 0 and 20 first and at 10 after the reset. *)
Definition reset_traces : option (list event * list event) :=
  match lrun 20 (fresh_heap ex_per ex_cb (fun _ => 2) 0 0) ex_ops with
  | Ok (h0, _) =>
    match run_ends 40 20 ex_oracle h0 [] 1 [28] with
    | Ok (h1, tr1) =>
      match BKContextReset 20 h1 1 with
      | Ok h2 => match run_ends 40 20 ex_oracle h2 [] 1 [28] with Ok (_, tr2) => Some (tr1, tr2) | Err _ => None end
      | Err _ => None
      end
    | Err _ => None
    end
  | Err _ => None
  end.
Theorem C122_context_reset_refuted : exists tr1 tr2, reset_traces = Some (tr1, tr2) /\
  clock_trace 10 tr2 = clock_trace 10 tr1 /\ clock_trace 11 tr2 = clock_trace 11 tr1 /\ div_trace 20 tr2 = div_trace 20 tr1 /\
  div_trace 21 tr1 = [0; 20] /\ div_trace 21 tr2 = [10].
Proof.
  destruct reset_traces as [[tr1 tr2]|] eqn:E; vm_compute in E; [|discriminate].
  match type of E with Some (?a, ?b) = _ => assert (tr1 = a) as -> by congruence; assert (tr2 = b) as -> by congruence end.
  eexists _, _. split; [reflexivity|]. vm_compute. repeat split.
Qed.

Print Assumptions C122_context_reset_partial.
Print Assumptions C122_plain_partial.
Print Assumptions C122_context_dividers_go_on.
Print Assumptions C122_context_reset_refuted.
