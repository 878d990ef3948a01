(** Initial states, dividers firing every n-th tick, disposal, stuck clocks. *)
From Verif Require Import CIntFacts TimeModel ClockModel ListSpec DList Family ListProofs ClockSpec ClockProofs.
Ltac Zify.zify_post_hook ::= idtac.

(** ** Before anything is generated *)
Section Quiet.
Variables (per : Z -> Z) (cb : Z -> clock_cb) (dv : Z -> Z).

Definition cquiet (p : Z) (c : clock) : Prop :=
  c_time c = 0 /\ c_nextTime c = 0 /\ c_counter c = 0 /\ c_period c = per p /\ c_cb c = cb p.
Definition dquiet (p : Z) (d : divider) : Prop := d_cb d = true /\ d_divider d = dv p /\ d_counter d = 0.
Record quiet (h : heap) : Prop := {
  q_clock : forall p, cquiet p (h_clock h p);
  q_div : forall p, dquiet p (h_div h p);
  q_ctx : forall x, x_deltaTime (h_ctx h x) = 0 /\ x_currentTime (h_ctx h x) = 0 }.

Lemma quiet_clock h p c : quiet h -> cquiet p c -> quiet (set_clock h p c).
Proof.
  intros [Q1 Q2 Q3] C. constructor; auto. intros y. cbn [h_clock set_clock]. unfold pupd.
  destruct (Z.eqb_spec y p) as [->|]; auto.
Qed.
Lemma quiet_div h p c : quiet h -> dquiet p c -> quiet (set_div h p c).
Proof.
  intros [Q1 Q2 Q3] C. constructor; auto. intros y. cbn [h_div set_div]. unfold pupd.
  destruct (Z.eqb_spec y p) as [->|]; auto.
Qed.
Lemma quiet_group h p c : quiet h -> quiet (set_group h p c).
Proof. intros [Q1 Q2 Q3]. constructor; auto. Qed.
Lemma quiet_unit h p c : quiet h -> quiet (set_unit h p c).
Proof. intros [Q1 Q2 Q3]. constructor; auto. Qed.
Lemma quiet_ctx h p c : quiet h -> x_deltaTime c = 0 /\ x_currentTime c = 0 -> quiet (set_ctx h p c).
Proof.
  intros [Q1 Q2 Q3] C. constructor; auto. intros y. cbn [h_ctx set_ctx]. unfold pupd.
  destruct (Z.eqb_spec y p) as [->|]; auto.
Qed.

Lemma quiet_reset_divs : forall fuel h p h', quiet h -> reset_dividers fuel h p = Ok h' -> quiet h'.
Proof.
  induction fuel as [|fuel IH]; intros h p h' Q E; cbn [reset_dividers] in E; destruct (p =? NULL); try discriminate; try congruence.
  eapply IH; [|exact E]. unfold BKDividerReset. apply quiet_div; [exact Q|].
  destruct (q_div _ Q p) as (A & B & C). repeat split; assumption.
Qed.

Lemma quiet_reset fuel h p h' : quiet h -> BKClockReset fuel h p = Ok h' -> quiet h'.
Proof.
  unfold BKClockReset. intros Q.
  set (h0 := if negb (c_ctx (h_clock h p) =? NULL) then _ else _).
  assert (Q0 : quiet h0).
  { unfold h0. destruct (negb _); [|exact Q]. apply quiet_ctx; [exact Q|]. apply (q_ctx _ Q). }
  destruct (reset_dividers fuel h0 _) as [h1|] eqn:E; cbn [bind]; [|discriminate]. intros E1.
  assert (Q1 := quiet_reset_divs _ _ _ _ Q0 E).
  assert (EQ : h' = set_clock h1 p (mk_clock (c_ctx (h_clock h1 p)) (c_prev (h_clock h1 p)) (c_next (h_clock h1 p)) (c_period (h_clock h1 p)) 0 0 0 (c_cb (h_clock h1 p)))) by congruence.
  rewrite EQ. apply quiet_clock; [exact Q1|]. destruct (q_clock _ Q1 p) as (A & B & C & D & E'). repeat split; assumption.
Qed.

Lemma cq_links h p c : quiet h -> c_time c = c_time (h_clock h p) -> c_nextTime c = c_nextTime (h_clock h p) ->
  c_counter c = c_counter (h_clock h p) -> c_period c = c_period (h_clock h p) -> c_cb c = c_cb (h_clock h p) -> quiet (set_clock h p c).
Proof.
  intros Q E1 E2 E3 E4 E5. apply quiet_clock; [exact Q|]. destruct (q_clock _ Q p) as (A & B & C & D & E').
  unfold cquiet. rewrite E1, E2, E3, E4, E5. auto.
Qed.
Lemma dq_links h p c : quiet h -> d_cb c = d_cb (h_div h p) -> d_divider c = d_divider (h_div h p) ->
  d_counter c = d_counter (h_div h p) -> quiet (set_div h p c).
Proof.
  intros Q E1 E2 E3. apply quiet_div; [exact Q|]. destruct (q_div _ Q p) as (A & B & C).
  unfold dquiet. rewrite E1, E2, E3. auto.
Qed.
Lemma xq_links h p c : quiet h -> x_deltaTime c = x_deltaTime (h_ctx h p) -> x_currentTime c = x_currentTime (h_ctx h p) -> quiet (set_ctx h p c).
Proof. intros Q E1 E2. apply quiet_ctx; [exact Q|]. rewrite E1, E2. apply (q_ctx _ Q). Qed.

Ltac qstep := first [assumption | apply cq_links; [|reflexivity..] | apply dq_links; [|reflexivity..] | apply xq_links; [|reflexivity..]
  | apply quiet_group | apply quiet_unit | match goal with |- quiet (if ?b then _ else _) => destruct b end].

Lemma quiet_step fuel h op h' code : quiet h -> lstep fuel h op = Ok (h', code) -> quiet h'.
Proof.
  intros Q. destruct op as [c x b|c|c|d g|d|u x|u]; cbn [lstep].
  - unfold BKClockAttach. destruct (_ =? NULL); [|intros E; assert (h' = h) as -> by congruence; exact Q].
    destruct (BKClockReset _ _ _) as [h1|] eqn:E; cbn [bind]; [|discriminate].
    assert (Q1 : quiet h1) by (eapply quiet_reset; [|exact E]; qstep; exact Q).
    destruct (nonnull x); cbn [bind]; [|discriminate].
    set (b' := if b =? BK_FIRST_ELEMENT_PTR then _ else _). destruct (b' =? NULL).
    + intros E2. match type of E2 with Ok (?a, _) = _ => assert (h' = a) as -> by congruence end.
      qstep; repeat qstep.
    + destruct (_ =? x); [|intros E2; assert (h' = h1) as -> by congruence; exact Q1].
      set (h2 := set_clock h1 c _).
      assert (Q2 : quiet h2) by (unfold h2; repeat qstep).
      destruct (b' =? _); cbn [bind].
      * intros E2. match type of E2 with Ok (?a, _) = _ => assert (h' = a) as -> by congruence end. repeat qstep.
      * destruct (nonnull _); cbn [bind]; [|discriminate].
        intros E2. match type of E2 with Ok (?a, _) = _ => assert (h' = a) as -> by congruence end. repeat qstep.
  - destruct (BKClockDetach fuel h c) as [h1|] eqn:E; cbn [bind]; [|discriminate]. intros E1. assert (h' = h1) as -> by congruence.
    revert E. unfold BKClockDetach. destruct (negb _); [|congruence].
    intros E. eapply quiet_reset; [|exact E]. apply cq_links; [|reflexivity..].
    set (h2 := if negb (c_prev (h_clock h c) =? NULL) then _ else _).
    assert (Q2 : quiet h2) by (unfold h2; repeat qstep). repeat qstep.
  - destruct (BKClockReset fuel h c) as [h1|] eqn:E; cbn [bind]; [|discriminate]. intros E1. assert (h' = h1) as -> by congruence.
    eapply quiet_reset; eassumption.
  - unfold BKDividerAttachToGroup. destruct (d_group _); [intros E; assert (h' = h) as -> by congruence; exact Q|].
    intros E2. match type of E2 with Ok (?a, _) = _ => assert (h' = a) as -> by congruence end.
    set (h2 := set_div h d _). assert (Q2 : quiet h2) by (unfold h2; repeat qstep). repeat qstep.
  - intros E2. assert (h' = BKDividerDetach h d) as -> by congruence. unfold BKDividerDetach.
    destruct (d_group _) as [g|]; [|exact Q].
    set (h2 := if negb (d_prev (h_div h d) =? NULL) then _ else _).
    assert (Q2 : quiet h2) by (unfold h2; repeat qstep). repeat qstep.
  - unfold BKUnitAttach. destruct (_ =? NULL); [|intros E; assert (h' = h) as -> by congruence; exact Q].
    intros E2. match type of E2 with Ok (?a, _) = _ => assert (h' = a) as -> by congruence end.
    set (h2 := set_unit h u _). assert (Q2 : quiet h2) by (unfold h2; repeat qstep). repeat qstep.
  - intros E2. assert (h' = BKUnitDetach h u) as -> by congruence. unfold BKUnitDetach.
    destruct (negb _); [|exact Q].
    set (h2 := if negb (u_prev (h_unit h u) =? NULL) then _ else _).
    assert (Q2 : quiet h2) by (unfold h2; repeat qstep). repeat qstep.
Qed.

Lemma quiet_run fuel : forall ops h h' codes, quiet h -> lrun fuel h ops = Ok (h', codes) -> quiet h'.
Proof.
  induction ops as [|op ops IH]; intros h h' codes Q E; cbn [lrun] in E.
  - congruence.
  - destruct (lstep fuel h op) as [[h1 c1]|] eqn:E1; cbn [bind] in E; [|discriminate].
    destruct (lrun fuel h1 ops) as [[h2 c2]|] eqn:E2; cbn [bind] in E; [|discriminate].
    assert (h' = h2) as -> by congruence. eapply IH; [|exact E2]. eapply quiet_step; eassumption.
Qed.

Lemma quiet_fresh : quiet (fresh_heap per cb dv 0 0).
Proof. constructor; intros; repeat split. Qed.
End Quiet.

(** ** Dividers *)
Lemma firing_run o t n d : (forall u v, 1 <= v < 2147483648 -> 0 <= o u v < 2147483648) ->
  1 <= n < 2147483648 -> d_cb d = true -> d_divider d = n -> d_counter d = 0 ->
  forall k, exists d' m, div_iter o d (map t (seq 0 k)) = Ok (d', map (fun j => t (fst (firing o t n j))) (seq 0 m)) /\
    d_cb d' = true /\ d_divider d' = snd (firing o t n m) /\
    d_counter d' = Z.of_nat (fst (firing o t n m)) - Z.of_nat k /\
    (forall j, (j < m)%nat -> (fst (firing o t n j) < k)%nat) /\ (k <= fst (firing o t n m))%nat /\ dgood d'.
Proof.
  intros Ho Hn Hcb Hd Hc. induction k as [|k IH].
  - exists d, O. cbn. repeat split; auto; try lia; unfold dgood; lia.
  - destruct IH as (d1 & m & E & C1 & C2 & C3 & C4 & C5 & C6).
    rewrite seq_S, map_app. rewrite (div_iter_app _ _ _ _ _ _ E). cbn [plus map div_iter].
    destruct (divider_tick_ok (o (t k)) d1 C6 (Ho (t k))) as (T1 & T2). rewrite T1. cbn [bind].
    set (d2 := div_set_state d1 _ _) in *. unfold dfires. rewrite C1, Bool.andb_true_r.
    pose proof C6 as (G1 & G2).
    destruct (Z.leb_spec (d_counter d1) 0) as [K|K].
    + assert (EK : fst (firing o t n m) = k) by lia.
      exists d2, (S m). split; [|].
      * rewrite seq_S, map_app. cbn [plus map]. rewrite EK. reflexivity.
      * assert (NV : next_value (o (t k)) d1 = Z.max 1 (o (t k) (snd (firing o t n m)))).
        { unfold next_value. replace (d_counter d1 <=? 0) with true by lia. rewrite C1, C2. reflexivity. }
        cbn [firing]. destruct (firing o t n m) as [i v] eqn:EF. cbn [fst snd] in *. subst i.
        unfold d2. cbn [div_set_state d_cb d_divider d_counter]. rewrite NV.
        split; [exact C1|]. split; [reflexivity|]. split; [lia|]. split; [|split; [lia|]].
        -- intros j Hj. destruct (Nat.eq_dec j m) as [->|]; [rewrite EF; cbn; lia|]. specialize (C4 j ltac:(lia)). lia.
        -- unfold d2 in T2. rewrite NV in T2. exact T2.
    + assert (NV : next_value (o (t k)) d1 = d_divider d1) by (unfold next_value; replace (d_counter d1 <=? 0) with false by lia; reflexivity).
      exists d2, m. split; [rewrite app_nil_r; reflexivity|].
      unfold d2 in *. cbn [div_set_state d_cb d_divider d_counter] in *. rewrite NV in *.
      split; [exact C1|]. split; [exact C2|]. split; [lia|]. split; [|split; [lia|exact T2]].
      intros j Hj. specialize (C4 j Hj). lia.
Qed.

(** Firing without callbacks changing the value. *)
Lemma firing_const o t n : (forall u, o u n = n) -> 1 <= n -> forall j, firing o t n j = ((j * Z.to_nat n)%nat, n).
Proof.
  intros Ho Hn. induction j as [|j IH]; cbn [firing]; [reflexivity|]. rewrite IH, Ho.
  replace (Z.max 1 n) with n by lia. f_equal. lia.
Qed.

Lemma sched_const o c p : (forall k t, o_next o c k t <= t) -> forall k, sched o c p k = (Z.of_nat k * p, p).
Proof.
  intros Ho. induction k as [|k IH]; cbn [sched]; [reflexivity|]. rewrite IH.
  specialize (Ho (u32 (Z.of_nat k)) (Z.of_nat k * p)).
  destruct (Z.gtb_spec (o_next o c (u32 (Z.of_nat k)) (Z.of_nat k * p)) (Z.of_nat k * p)); [lia|]. f_equal. lia.
Qed.

(** ** Runs from a fresh context *)
Lemma rinv_start o x s per cb dv D h : run_hyps o x s per D -> (forall d, 1 <= dv d < 2147483648) ->
  rep h s -> quiet per cb dv h -> rinv o x s per cb (h_div h) h [] 0.
Proof.
  intros H HV R Q. split.
  - constructor; auto.
    + intros c. destruct (q_clock _ _ _ _ Q c) as (_ & _ & _ & _ & E). exact E.
    + apply (q_ctx _ _ _ _ Q).
    + lia.
    + intros g d Hd. split; [reflexivity|]. destruct (q_div _ _ _ _ Q d) as (_ & E1 & E2). unfold dgood. rewrite E1, E2. specialize (HV d). lia.
  - intros c Hc. exists O. destruct (q_clock _ _ _ _ Q c) as (E1 & E2 & E3 & E4 & E5). split; [constructor; first [assumption|reflexivity]|].
    split; [intros i Hi; lia|cbn; lia].
Qed.

(** ** Disposal *)
Lemma dispose_stuck p : p <> 0 -> forall fuel h, dispose_dividers fuel h p = Err EFuel.
Proof.
  intros Hp. induction fuel as [|fuel IH]; intros h; cbn [dispose_dividers]; unfold NULL; replace (p =? 0) with false by lia; [reflexivity|]. apply IH.
Qed.

Lemma reset_fuel : forall fuel h p, exists r, reset_dividers fuel h p = r /\ match r with Ok _ => True | Err e => e = EFuel end.
Proof.
  induction fuel as [|fuel IH]; intros h p; cbn [reset_dividers]; destruct (p =? NULL).
  - eexists; split; reflexivity || exact I.
  - eexists; split; reflexivity.
  - eexists; split; reflexivity || exact I.
  - apply IH.
Qed.

Lemma clock_dispose_hangs h s c : rep h s -> c <> 0 -> l_divs s (GClock c) <> [] ->
  forall fuel, BKClockDisposeObject fuel h c = Err EFuel.
Proof.
  intros R Hc NE fuel. unfold BKClockDisposeObject.
  assert (DE : forall h', BKClockDetach fuel h c = Ok h' -> h_group h' = h_group h).
  { intros h'. unfold BKClockDetach. destruct (negb _); [|congruence]. unfold BKClockReset.
    set (h2 := set_clock _ _ _).
    set (h3 := if negb (c_ctx (h_clock h2 c) =? NULL) then _ else _).
    assert (G3 : h_group h3 = h_group h).
    { unfold h3, h2. repeat match goal with |- context [if ?b then _ else _] => destruct b end; reflexivity. }
    destruct (reset_dividers fuel h3 _) as [h4|] eqn:E4; cbn [bind]; [|discriminate].
    assert (RG : forall fuel h p h', reset_dividers fuel h p = Ok h' -> h_group h' = h_group h).
    { clear. induction fuel as [|fuel IH]; intros h p h' E; cbn [reset_dividers] in E; destruct (p =? NULL); try congruence.
      apply IH in E. rewrite E. reflexivity. }
    intros E. apply RG in E4. match type of E with Ok ?a = _ => assert (h' = a) as -> by congruence end.
    cbn [h_group set_clock]. congruence. }
  assert (DF : match BKClockDetach fuel h c with Ok _ => True | Err e => e = EFuel end).
  { unfold BKClockDetach. destruct (negb _); [|exact I]. unfold BKClockReset. set (h2 := set_clock _ _ _).
    set (h3 := if negb (c_ctx (h_clock h2 c) =? NULL) then _ else _).
    destruct (reset_fuel fuel h3 (g_first (h_group h3 (GClock c)))) as (r & -> & Hr). destruct r; cbn [bind]; auto. }
  destruct (BKClockDetach fuel h c) as [h'|e]; cbn [bind]; [|congruence].
  rewrite (DE h' eq_refl). destruct (fam_dll _ _ _ _ _ _ _ (rp_divs _ _ R) (GClock c) I) as (D1 & _ & D3 & _).
  rewrite D1. apply dispose_stuck. destruct (l_divs s (GClock c)) as [|a l] eqn:EL; [congruence|]. cbn [hd].
  exact (dseg_nonnull _ _ _ _ _ a D3 (or_introl eq_refl)).
Qed.

(** Without dividers a clock is detached. *)
Lemma clock_dispose_ok h s c fuel : rep h s -> c <> 0 -> l_divs s (GClock c) = [] ->
  exists h', BKClockDisposeObject fuel h c = Ok h' /\
    ((exists x l1 l2, x <> 0 /\ l_clocks s x = l1 ++ c :: l2 /\ rep h' (put_clocks s x (l1 ++ l2))) \/
     ((forall x, x <> 0 -> ~ In c (l_clocks s x)) /\ rep h' s)).
Proof.
  intros R Hc EL. unfold BKClockDisposeObject.
  assert (FIN : forall h', rep h' s \/ (exists x l, rep h' (put_clocks s x l)) -> dispose_dividers fuel h' (g_first (h_group h' (GClock c))) = Ok h').
  { intros h' R'. assert (F : g_first (h_group h' (GClock c)) = 0).
    { destruct R' as [R'|(x & l & R')]; destruct (fam_dll _ _ _ _ _ _ _ (rp_divs _ _ R') (GClock c) I) as (D1 & _); rewrite D1; cbn [put_clocks l_divs]; rewrite EL; reflexivity. }
    rewrite F. destruct fuel; reflexivity. }
  destruct (Z.eq_dec (c_ctx (h_clock h c)) 0) as [E0|E0].
  - assert (DT : BKClockDetach fuel h c = Ok h) by (unfold BKClockDetach; rewrite E0; reflexivity).
    rewrite DT. cbn [bind]. exists h. split; [apply FIN; left; exact R|]. right. split; [|exact R].
    intros x Hx I0. destruct (attached _ _ _ _ (rp_clocks _ _ R) Hx I0). congruence.
  - set (x := c_ctx (h_clock h c)) in *.
    assert (I0 : In c (l_clocks s x)) by (apply (fam_mem _ _ _ _ _ _ _ (rp_clocks _ _ R)); auto).
    apply in_split in I0 as (l1 & l2 & I0).
    destruct (clock_detach_ok fuel h s c x l1 l2 R E0 I0 ltac:(rewrite EL; cbn; lia)) as (h' & E & R').
    rewrite E. cbn [bind]. exists h'. split; [apply FIN; right; eauto|]. left. exists x, l1, l2. auto.
Qed.

(** Disposing a context detaches its units and clocks. *)
Lemma detach_units_ok x : x <> 0 -> forall l h s fuel, rep h s -> l_units s x = l -> (length l <= fuel)%nat ->
  exists h' s', detach_units fuel h (hd 0 l) = Ok h' /\ rep h' s' /\ l_units s' x = [] /\
    l_clocks s' = l_clocks s /\ l_divs s' = l_divs s /\ (forall y, y <> x -> l_units s' y = l_units s y).
Proof.
  intros Hx. induction l as [|u l IH]; intros h s fuel R EL HF.
  - exists h, s. split; [destruct fuel; reflexivity|]. split; [exact R|]. repeat split; auto.
  - destruct fuel as [|fuel]; [cbn in HF; lia|]. cbn [hd detach_units]. unfold NULL.
    destruct (fam_dll _ _ _ _ _ _ _ (rp_units _ _ R) x Hx) as (_ & _ & D3 & _). rewrite EL in D3.
    destruct D3 as (D0 & D1 & D2 & _). replace (u =? 0) with false by lia. unfold un in D2. rewrite D2.
    assert (R' := unit_detach_ok h s u x [] l R Hx EL). cbn [app] in R'.
    destruct (IH _ _ fuel R') as (h' & s' & E & R2 & A1 & A2 & A3 & A4).
    + cbn [put_units l_units]. rewrite Z.eqb_refl. reflexivity.
    + cbn in HF; lia.
    + exists h', s'. split; [exact E|]. split; [exact R2|]. split; [exact A1|]. split; [exact A2|]. split; [exact A3|].
      intros y Hy. rewrite A4 by exact Hy. cbn [put_units l_units]. replace (y =? x) with false by lia. reflexivity.
Qed.

Lemma detach_clocks_ok x D : x <> 0 -> forall l h s fuel, rep h s -> l_clocks s x = l -> (length l + D <= fuel)%nat ->
  (forall g, (length (l_divs s g) <= D)%nat) ->
  exists h' s', detach_clocks fuel h (hd 0 l) = Ok h' /\ rep h' s' /\ l_clocks s' x = [] /\
    l_units s' = l_units s /\ l_divs s' = l_divs s /\ (forall y, y <> x -> l_clocks s' y = l_clocks s y).
Proof.
  intros Hx. induction l as [|u l IH]; intros h s fuel R EL HF HD.
  - exists h, s. split; [destruct fuel; reflexivity|]. split; [exact R|]. repeat split; auto.
  - destruct fuel as [|fuel]; [cbn in HF; lia|]. cbn [hd detach_clocks]. unfold NULL.
    destruct (fam_dll _ _ _ _ _ _ _ (rp_clocks _ _ R) x Hx) as (_ & _ & D3 & _). rewrite EL in D3.
    destruct D3 as (D0 & D1 & D2 & _). replace (u =? 0) with false by lia. unfold cn in D2. rewrite D2.
    destruct (clock_detach_ok fuel h s u x [] l R Hx EL) as (h1 & E1 & R1).
    { specialize (HD (GClock u)). cbn in HF. lia. }
    rewrite E1. cbn [bind app] in *.
    destruct (IH _ _ fuel R1) as (h' & s' & E & R2 & A1 & A2 & A3 & A4).
    + cbn [put_clocks l_clocks]. rewrite Z.eqb_refl. reflexivity.
    + cbn in HF; lia.
    + exact HD.
    + exists h', s'. split; [exact E|]. split; [exact R2|]. split; [exact A1|]. split; [exact A2|]. split; [exact A3|].
      intros y Hy. rewrite A4 by exact Hy. cbn [put_clocks l_clocks]. replace (y =? x) with false by lia. reflexivity.
Qed.

(** ** Stuck clocks *)
Definition stuck (h : heap) (x c : Z) : Prop :=
  x_firstClock (h_ctx h x) = c /\ c <> 0 /\ c_next (h_clock h c) = 0 /\
  c_time (h_clock h c) <> c_nextTime (h_clock h c) /\ c_nextTime (h_clock h c) = x_currentTime (h_ctx h x) /\
  0 <= x_currentTime (h_ctx h x) < 9223372036854775807 /\ 0 <= c_time (h_clock h c) < 9223372036854775807.

Lemma stuck_step fuel o h tr x c : stuck h x c -> (1 <= fuel)%nat ->
  exists h', BKClocksAdvance fuel o h tr x = Ok (h', tr, 0) /\ stuck h' x c.
Proof.
  intros (S1 & S2 & S3 & S4 & S5 & S6 & S7) HF. unfold BKClocksAdvance. destruct fuel as [|fuel]; [lia|].
  set (h0 := set_ctx h x _).
  assert (K0 : h_clock h0 = h_clock h) by reflexivity.
  assert (K1 : x_firstClock (h_ctx h0 x) = c) by (unfold h0; hsimpl; unfold pupd; rewrite Z.eqb_refl; exact S1).
  assert (K2 : x_currentTime (h_ctx h0 x) = x_currentTime (h_ctx h x)) by (unfold h0; hsimpl; unfold pupd; rewrite Z.eqb_refl; reflexivity).
  rewrite K1, K2. cbn [tick_loop]. unfold NULL. replace (c =? 0) with false by lia.
  unfold BKClockTick, BKTimeIsEqual. rewrite K0. replace (_ =? c_nextTime (h_clock h c)) with false by lia. cbn [bind].
  rewrite K0, S3. assert (TL : forall m, tick_loop fuel o (x_currentTime (h_ctx h x)) h0 tr m 0 = Ok (h0, tr, m)) by (intros; destruct fuel; reflexivity).
  rewrite TL. cbn [bind]. rewrite K2. unfold BKTimeIsLess, BK_TIME_MAX. rewrite S5. replace (_ <? _) with true by lia.
  unfold BKTimeSub. rewrite Z.sub_diag. rewrite chk64_small by lia. cbn [bind].
  unfold BKTimeIsLessFUInt20, BK_INT_MAX. change (0 <? 2147483647 / 3) with true. cbv beta iota. change (BKTimeGetFUInt20 0) with 0.
  rewrite K1. cbn [advance_loop]. unfold NULL. replace (c =? 0) with false by lia. rewrite K0.
  unfold BKTimeAddFUInt20. rewrite !Z.add_0_r, chk64_small by lia. cbn [bind]. rewrite S3.
  set (h1 := set_clock h0 c _). assert (AL : advance_loop fuel h1 0 0 = Ok h1) by (destruct fuel; reflexivity). rewrite AL. cbn [bind].
  eexists. split.
  { unfold h1. hsimpl. rewrite K2, chk64_small by lia. reflexivity. }
  unfold stuck, h1, h0. hsimpl. unfold pupd. rewrite !Z.eqb_refl. hsimpl. rewrite ?Z.eqb_refl.
  repeat split; auto; lia.
Qed.

Lemma stuck_forever fuel o x c endTime : (1 <= fuel)%nat -> forall n h tr time, stuck h x c -> 0 <= time < endTime -> endTime < 4294967296 ->
  run_loop n fuel o h tr x time endTime = Err EFuel.
Proof.
  intros HF. induction n as [|n IH]; intros h tr time S Ht He; cbn [run_loop]; replace (time <? endTime) with true by lia; [reflexivity|].
  destruct (stuck_step fuel o h tr x c S HF) as (h' & E & S'). rewrite E. cbn [bind]. rewrite Z.add_0_r, u32_small by lia.
  apply IH; assumption.
Qed.
