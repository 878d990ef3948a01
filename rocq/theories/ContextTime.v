(** The loops of a context end if there is a clock. *)
From Verif Require Import CInt CIntFacts TimeModel Kernels BufferModel BufferSpec BufferProofs BufferProofs2 DataModel UnitModel TrackModel TrackTime UnitShift
  ContextModel ContextSpec ContextSame ContextShift ContextRun ContextChunk ContextGen ContextGen2 ContextHist.
Ltac Zify.zify_post_hook ::= idtac.

(** ** Invariant *)

Record base (c : context) : Prop := {
  bs_some : cx_channels c <> [];
  bs_channels : Forall buffer_ok (cx_channels c);
  bs_delta : 0 <= cx_delta c < 4294967296;
  bs_period : 0 < cx_period c;
  bs_clocks : Forall (clock_fine (cx_current c)) (cx_clocks c) }.

(** What does not change. *)
Definition still (c c' : context) : Prop := map k_id (cx_clocks c') = map k_id (cx_clocks c) /\ cx_period c' = cx_period c.

Lemma still_refl c : still c c.
Proof. split; reflexivity. Qed.
Lemma still_trans a b c : still a b -> still b c -> still a c.
Proof. intros [A1 A2] [B1 B2]. split; congruence. Qed.
Lemma still_nil c c' : still c c' -> cx_clocks c <> [] -> cx_clocks c' <> [].
Proof. intros [A _] H. destruct (cx_clocks c), (cx_clocks c'); cbn in A; congruence. Qed.
Lemma still_nil' c c' : still c c' -> cx_clocks c = [] -> cx_clocks c' = [].
Proof. intros [A _] H. rewrite H in A. destruct (cx_clocks c'); [reflexivity|discriminate]. Qed.

Lemma add_all_ok l : forall b b', buffer_ok b -> add_all b l = Ok b' -> buffer_ok b'.
Proof.
  induction l as [|[t p] l IH]; intros b b' B E; cbn [add_all] in E; [inversion E; subst; exact B|].
  binv E b1 E1. eapply IH; [|exact E]. eapply add_pulse_ok; eassumption.
Qed.

Lemma mix_ok time : forall chs ls chs', Forall buffer_ok chs -> mix_channels chs ls time = Ok chs' -> Forall buffer_ok chs'.
Proof.
  induction chs as [|b chs IH]; intros ls chs' F E; cbn [mix_channels] in E; [inversion E; constructor|].
  inversion F as [|? ? F1 F2]; subst. binv E b1 E1. binv E chs1 E2. inversion E; subst. constructor; [|eapply IH; eassumption].
  apply end_ok. eapply add_all_ok; eassumption.
Qed.

Lemma run_tracks_ok fuel time : forall ts chs ts' chs', Forall buffer_ok chs -> run_tracks fuel ts chs time = Ok (ts', chs') -> Forall buffer_ok chs'.
Proof.
  induction ts as [|[i t] ts IH]; intros chs ts' chs' F E; cbn [run_tracks] in E; [inversion E; subst; exact F|].
  binv E r E1. destruct r as [t1 ls]. binv E chs1 E2. binv E r E3. destruct r as [ts1 chs2]. assert (chs' = chs2) as -> by congruence.
  eapply IH; [|exact E3]. eapply mix_ok; eassumption.
Qed.

Lemma run_units_base fuel c time c' : base c -> run_units fuel c time = Ok c' ->
  base c' /\ still c c' /\ cx_current c' = cx_current c /\ cx_delta c' = cx_delta c.
Proof.
  intros [B1 B2 B3 B4 B5] E. unfold run_units in E. binv E r E1. destruct r as [ts chs]. assert (c' = x_channels (x_tracks c ts) chs) as -> by congruence.
  split; [|split; [split; reflexivity|split; reflexivity]]. pose proof (run_tracks_length _ _ _ _ _ _ E1) as L.
  split; cbn [x_channels x_tracks cx_channels cx_delta cx_period cx_clocks cx_current]; try assumption.
  - intros Z. rewrite Z in L. destruct (cx_channels c); [congruence|discriminate].
  - eapply run_tracks_ok; eassumption.
Qed.

Lemma max_pos : 0 <= BK_MAX_GENERATE_SAMPLES.
Proof. unfold BK_MAX_GENERATE_SAMPLES. lia. Qed.

Section Time.
Variable e : env.
Variable fuel : nat.
Hypothesis P : env_ok e.

Lemma advance_base c c' q : base c -> cx_clocks c <> [] -> BKClocksAdvance e fuel c = Ok (c', q) ->
  base c' /\ still c c' /\ 1 <= q <= 715827882 /\ cx_current c' = cx_current c + q /\ cx_delta c' = cx_delta c.
Proof.
  intros [B1 B2 B3 B4 B5] N E. destruct (advance_fine _ _ _ _ _ P N B5 E) as (A1 & A2 & A3 & A4 & A5 & A6 & A7 & A8 & A9 & A10).
  split; [split; try congruence; rewrite ?A6, ?A7, ?A10; assumption|]. split; [split; assumption|]. auto.
Qed.

Lemma run_loop_base n : forall c time endTime c' t', base c -> cx_clocks c <> [] -> 0 <= time < 4294967296 -> run_loop n e fuel c time endTime = Ok (c', t') ->
  base c' /\ still c c' /\ cx_current c <= cx_current c' /\ (time < endTime -> cx_current c < cx_current c') /\ cx_delta c' = cx_delta c /\
  0 <= t' < 4294967296 /\ endTime <= t' /\ (endTime <= time -> c' = c /\ t' = time).
Proof.
  induction n as [|n IH]; intros c time endTime c' t' B N T E; cbn [run_loop] in E; destruct (Z.ltb_spec time endTime) as [Q|Q].
  - discriminate.
  - inversion E; subst. repeat split; try apply still_refl; try apply B; try lia.
  - binv E r E1. destruct r as [c1 q]. cbv zeta in E. binv E c2 E2. destruct (advance_base _ _ _ B N E1) as (B1 & S1 & Q1 & C1 & D1).
    destruct (run_units_base _ _ _ _ B1 E2) as (B2 & S2 & C2 & D2). pose proof (still_trans _ _ _ S1 S2) as S3.
    destruct (IH _ _ _ _ _ B2 (still_nil _ _ S3 N) (u32_range _) E) as (B4 & S4 & C4 & _ & D4 & T4 & U4 & _).
    split; [exact B4|]. split; [eapply still_trans; eassumption|]. repeat split; try lia; congruence.
  - inversion E; subst. repeat split; try apply still_refl; try apply B; try lia.
Qed.

Lemma end_base n c t c' : base c -> BKContextEnd n e fuel c t = Ok c' ->
  base c' /\ still c c' /\ cx_current c <= cx_current c' /\
  (cx_clocks c = [] -> cx_current c' = cx_current c) /\
  (cx_clocks c <> [] -> cx_delta c < t -> cx_current c < cx_current c') /\
  (cx_clocks c <> [] -> 0 <= t <= cx_delta c -> cx_current c' = cx_current c /\ cx_delta c' = cx_delta c - t).
Proof.
  intros B E. unfold BKContextEnd, BKContextRun in E. binv E c1 E1. cbv zeta in E.
  match type of E with Ok ?x = _ => assert (c' = x) as -> by congruence end. clear E.
  assert (SH : Forall buffer_ok (cx_channels c1) -> cx_channels c1 <> [] -> Forall (clock_fine (cx_current c1)) (cx_clocks c1) -> 0 < cx_period c1 ->
    base (x_channels (x_tracks (x_delta c1 (u32 (cx_delta c1 - t))) (map (end_track t) (cx_tracks (x_delta c1 (u32 (cx_delta c1 - t))))))
         (map (fun b => BKBufferShift b t) (cx_channels (x_tracks (x_delta c1 (u32 (cx_delta c1 - t))) (map (end_track t) (cx_tracks (x_delta c1 (u32 (cx_delta c1 - t)))))))))).
  { intros F1 F2 F3 F4. split; cbn [x_channels x_tracks x_delta cx_channels cx_delta cx_period cx_clocks cx_current]; try assumption.
    - destruct (cx_channels c1); [congruence|discriminate].
    - apply Forall_map. eapply Forall_impl; [|exact F1]. intros b. apply shift_ok.
    - apply u32_range. }
  destruct (cx_clocks c) as [|k0 ks0] eqn:CK.
  - destruct (run_units_base _ _ _ _ B E1) as ([B1 B2 B3 B4 B5] & S1 & C1 & D1). split; [apply SH; assumption|]. split; [exact S1|].
    cbn [x_channels x_tracks x_delta cx_current cx_delta]. rewrite C1. split; [lia|]. split; [auto|]. split; congruence.
  - assert (N : cx_clocks c <> []) by congruence. rewrite <- CK in *. clear CK k0 ks0.
    binv E1 r E2. destruct r as [c2 t2]. assert (c1 = x_delta c2 t2) as -> by congruence. clear E1.
    destruct (run_loop_base _ _ _ _ _ _ B N (bs_delta _ B) E2) as ([B1 B2 B3 B4 B5] & S1 & C1 & C2 & D1 & T1 & T2 & T3).
    split; [apply SH; assumption|]. split; [exact S1|]. cbn [x_channels x_tracks x_delta cx_current cx_delta]. split; [exact C1|]. split; [congruence|].
    split; [auto|]. intros _ L. destruct (T3 (proj2 L)) as [-> ->]. split; [reflexivity|]. rewrite u32_small; lia.
Qed.

Lemma read_channels_base : forall chs size chs' n l, Forall buffer_ok chs -> 0 <= size -> read_channels chs size = Ok (chs', n, l) ->
  Forall buffer_ok chs' /\ length chs' = length chs /\ n <= size /\ Forall (fun s => Z.of_nat (length s) <= size) l.
Proof.
  induction chs as [|b chs IH]; intros size chs' n l F S E; cbn [read_channels] in E.
  - inversion E; subst. split; [constructor|]. split; [reflexivity|]. split; [lia|constructor].
  - inversion F as [|? ? F1 F2]; subst. binv E r E1. destruct r as [b1 s]. binv E r E2. destruct r as [[chs1 n1] l1]. inversion E; subst. clear E.
    pose proof (read_ok _ _ _ _ F1 S E1) as B1. assert (L : Z.of_nat (length s) <= size).
    { rewrite read_unfold in E1 by assumption. cbv zeta in E1. binv E1 r E3. inversion E1; subst. rewrite (loop_length _ _ _ E3), firstn_length.
      unfold BKMin. destruct (size <? b_capacity b) eqn:?; lia. }
    destruct (IH _ _ _ _ F2 (Nat2Z.is_nonneg _) E2) as (I1 & I2 & I3 & I4). split; [constructor; assumption|]. split; [cbn; congruence|]. split; [lia|].
    constructor; [exact L|]. eapply Forall_impl; [|exact I4]. cbn. intros. lia.
Qed.

Lemma read_channels_err x : forall chs size, Forall buffer_ok chs -> 0 <= size -> read_channels chs size = Err x -> x = EOverflow.
Proof.
  induction chs as [|b chs IH]; intros size F S E; cbn [read_channels] in E; [discriminate|]. inversion F as [|? ? F1 F2]; subst.
  destruct (BKBufferRead b size) as [[b1 s]|] eqn:E1; cbn [bind] in E.
  - destruct (read_channels chs (Z.of_nat (length s))) as [[[chs1 n1] l1]|] eqn:E2; cbn [bind] in E; [discriminate|].
    assert (x = e0) as -> by congruence. eapply IH; [exact F2| |exact E2]. lia.
  - assert (x = e0) as -> by congruence. eapply read_err; eassumption.
Qed.

Lemma read_base c size c' n l : base c -> 0 <= size -> BKContextRead c size = Ok (c', n, l) ->
  base c' /\ still c c' /\ cx_current c' = cx_current c /\ cx_delta c' = cx_delta c /\ n <= size /\ Forall (fun s => Z.of_nat (length s) <= size) l.
Proof.
  intros [B1 B2 B3 B4 B5] S E. unfold BKContextRead in E. binv E r E1. destruct r as [[chs k] l1]. inversion E; subst. clear E.
  destruct (read_channels_base _ _ _ _ _ B2 S E1) as (R1 & R2 & R3 & R4).
  split; [|split; [split; reflexivity|split; [reflexivity|split; [reflexivity|split; assumption]]]].
  split; cbn [x_channels cx_channels cx_delta cx_period cx_clocks cx_current]; try assumption.
  intros Z. rewrite Z in R2. destruct (cx_channels c); [congruence|discriminate].
Qed.

Lemma generate_base m n : forall c rem w c' w' l, base c -> 0 <= rem -> generate_loop m n e fuel c rem w = Ok (c', w', l) ->
  base c' /\ still c c' /\ (cx_clocks c = [] -> cx_current c' = cx_current c).
Proof.
  induction m as [|m IH]; intros c rem w c' w' l B R E; cbn [generate_loop] in E; [discriminate|]. cbv zeta in E. binv E c1 E1.
  binv E r E2. destruct r as [[c2 k] l2]. destruct (end_base _ _ _ _ B E1) as (B1 & S1 & _ & C1 & _).
  assert (K : 0 <= (if rem >? BK_MAX_GENERATE_SAMPLES then BK_MAX_GENERATE_SAMPLES else rem)) by (unfold BK_MAX_GENERATE_SAMPLES; destruct (Z.gtb_spec rem 1024); lia).
  destruct (read_base _ _ _ _ _ B1 K E2) as (B2 & S2 & C2 & _).
  pose proof (still_trans _ _ _ S1 S2) as S3. destruct (negb _).
  - binv E r E3. destruct r as [[c3 w3] l3]. inversion E; subst. destruct (IH _ _ _ _ _ _ B2 (proj1 (u32_range _)) E3) as (B4 & S4 & C4).
    split; [exact B4|]. split; [eapply still_trans; eassumption|]. intros Z. rewrite C4 by (eapply still_nil'; eassumption). rewrite C2. auto.
  - inversion E; subst. split; [exact B2|]. split; [exact S3|]. intros Z. rewrite C2. auto.
Qed.

Lemma to_period T cur d : T <= BK_TIME_MAX -> cur < T -> BKTimeSub T cur = Ok d ->
  let p := if BKTimeIsLessFUInt20 d (BK_INT_MAX / 3) then BKTimeGetFUInt20 d else BK_INT_MAX / 3 in 1 <= p <= 715827882.
Proof.
  intros HT L E. unfold BKTimeSub, chk64 in E. destruct (in_s64 _); [|discriminate]. assert (d = T - cur) as -> by congruence. cbv zeta.
  unfold BKTimeIsLessFUInt20, BKTimeGetFUInt20, BK_INT_MAX. change (2147483647 / 3) with 715827882.
  destruct (_ <? _) eqn:Q; [rewrite u32_small by lia|]; lia.
Qed.

Lemma generate_to_base m n write T : T <= BK_TIME_MAX -> forall c nf k c' r ls, base c -> generate_to_loop m n e fuel write c T nf k = Ok (c', r, ls) ->
  base c' /\ still c c' /\ (cx_clocks c = [] -> cx_current c' = cx_current c) /\
  Forall (Forall (fun s => Z.of_nat (length s) <= 1024)) ls.
Proof.
  intros HT. induction m as [|m IH]; intros c nf k c' r ls B E; cbn [generate_to_loop] in E; unfold BKTimeIsLess in E at 1; destruct (Z.ltb_spec (cx_current c) T) as [L|L];
    try (inversion E; subst; split; [exact B|]; split; [apply still_refl|]; split; [auto|constructor]); [discriminate|].
  binv E d E0. cbv zeta in E. binv E c1 E1. binv E sz E2. destruct (end_base _ _ _ _ B E1) as (B1 & S1 & _ & C1 & _).
  destruct (_ || _).
  - binv E x E3. destruct x as [[c2 n2] l2]. binv E nf2 E4. destruct (read_base _ _ _ _ _ B1 max_pos E3) as (B2 & S2 & C2 & _ & _ & L2).
    pose proof (still_trans _ _ _ S1 S2) as S3. destruct (negb _).
    + inversion E; subst. split; [exact B2|]. split; [exact S3|]. split; [intros Z; rewrite C2; auto|]. constructor; [exact L2|constructor].
    + binv E x E5. destruct x as [[c3 r3] ls3]. inversion E; subst. destruct (IH _ _ _ _ _ _ B2 E5) as (B4 & S4 & C4 & L4).
      split; [exact B4|]. split; [eapply still_trans; eassumption|]. split; [intros Z; rewrite C4 by (eapply still_nil'; eassumption); rewrite C2; auto|].
      constructor; assumption.
  - destruct (IH _ _ _ _ _ _ B1 E) as (B4 & S4 & C4 & L4). split; [exact B4|]. split; [eapply still_trans; eassumption|].
    split; [intros Z; rewrite C4 by (eapply still_nil'; eassumption); auto|]. exact L4.
Qed.

(** ** Histories *)

Record tinv (any master started : bool) (c : context) : Prop := {
  ti_base : base c;
  ti_any : any = true <-> cx_clocks c <> [];
  ti_master : master = true -> In 0 (map k_id (cx_clocks c));
  ti_start : started = false -> cx_current c = 0 }.

Lemma init_tinv nc rate period : 0 < period -> tinv false false false (BKContextInit nc rate period).
Proof.
  intros Q. destruct (init_inv nc rate period Q) as [I1 I2 I3 I4 I5 I6 I7 I8 I9 I10]. split.
  - split; try assumption; try (cbn; lia). eapply Forall_impl; [|exact I1]. intros b H. apply H.
  - cbn. split; congruence.
  - discriminate.
  - reflexivity.
Qed.

Lemma still_tinv any master started c c' : tinv any master started c -> base c' -> still c c' ->
  (cx_clocks c = [] -> cx_current c' = cx_current c) -> tinv any master (started || any) c'.
Proof.
  intros [T1 T2 T3 T4] B S C. split; [exact B| | |].
  - rewrite T2. split; intros H Z; apply H.
    + destruct S as [S _]. rewrite Z in S. destruct (cx_clocks c); [reflexivity|discriminate].
    + eapply still_nil'; eassumption.
  - destruct S as [-> _]. exact T3.
  - intros H. destruct started; [discriminate|]. destruct any; [discriminate|]. rewrite C; [auto|]. destruct (cx_clocks c); [reflexivity|].
    destruct T2 as [_ T2]. discriminate T2. discriminate.
Qed.

Lemma existsb_master ks : existsb (fun k => k_id k =? 0) ks = true <-> In 0 (map k_id ks).
Proof.
  rewrite existsb_exists, in_map_iff. split; intros (k & K1 & K2); exists k; split; try assumption; lia.
Qed.

Lemma clocked_step m n any master started c o ops c' l : tinv any master started c -> clocked any master started (o :: ops) -> xstep m n e fuel c o = Ok (c', l) ->
  exists any' master' started', tinv any' master' started' c' /\ clocked any' master' started' ops /\ (any || has_clock [o] = any').
Proof.
  intros I L E. destruct o; cbn [clocked] in L; cbn [xstep] in E; cbn [has_clock existsb]; rewrite ?orb_true_r, ?orb_false_r.
  - destruct L as (L1 & L2 & L3 & L). assert (c' = attach_clock c id period) as -> by congruence. exists true, master, started. split; [|auto].
    destruct I as [[B1 B2 B3 B4 B5] T2 T3 T4]. unfold attach_clock. split.
    + split; cbn [x_clocks cx_channels cx_delta cx_tracks cx_period cx_clocks cx_current]; try assumption.
      apply Forall_app. split; [assumption|]. constructor; [|constructor]. unfold clock_fine. cbn [k_time k_next k_period]. rewrite (T4 L1). unfold BK_TIME_MAX. lia.
    + cbn. split; [|reflexivity]. intros _. destruct (cx_clocks c); discriminate.
    + cbn. intros H. rewrite map_app. apply in_or_app. left. auto.
    + exact T4.
  - destruct L as (L1 & L2 & L). binv E r E1. destruct r as [c1 r]. assert (c' = c1) as -> by congruence. clear E. unfold attach_track in E1. binv E1 x E2. destruct x as [t1 ret].
    assert (ret = 0) as ->.
    { unfold BKTrackAttach, BKUnitAttach in E2. rewrite L1 in E2. change (0 =? 0) with true in E2. cbv zeta in E2. cbn iota in E2. binv E2 t2 E3. congruence. }
    change (0 =? 0) with true in E1. cbn iota in E1.
    match type of E1 with Ok (?x, _) = _ => assert (c1 = x) as -> by congruence end. clear E1. exists true, true, started. split; [|auto].
    destruct I as [[B1 B2 B3 B4 B5] T2 T3 T4].
    unfold attach_master. cbn [x_tracks cx_period cx_clocks]. unfold BKTimeIsGreater. replace (cx_period c >? 0) with true by lia.
    destruct (existsb _ (cx_clocks c)) eqn:X.
    + apply existsb_master in X. split; cbn [x_tracks cx_channels cx_delta cx_tracks cx_period cx_clocks cx_current]; try assumption; auto.
      * split; assumption.
      * split; [|reflexivity]. intros _ Z. rewrite Z in X. destruct X.
    + assert (ST : started = false).
      { destruct started; [|reflexivity]. specialize (T3 (L2 eq_refl)). apply existsb_master in T3. congruence. }
      split.
      * split; cbn [x_tracks x_clocks cx_channels cx_delta cx_tracks cx_period cx_clocks cx_current]; try assumption.
        constructor; [|exact B5]. unfold clock_fine. cbn [k_time k_next k_period]. rewrite (T4 ST). unfold BK_TIME_MAX. lia.
      * cbn. split; [discriminate|reflexivity].
      * intros _. left. reflexivity.
      * exact T4.
  - assert (c' = detach_track c id) as -> by congruence. exists any, master, started. split; [|auto].
    destruct I as [[B1 B2 B3 B4 B5] T2 T3 T4]. split; [split|..]; assumption.
  - binv E ts E1. assert (c' = x_tracks c ts) as -> by congruence. exists any, master, started. split; [|auto].
    destruct I as [[B1 B2 B3 B4 B5] T2 T3 T4]. split; [split|..]; assumption.
  - exists any, master, started. split; [|auto]. assert (c' = fst (set_clock_period c period)) as -> by congruence. clear E.
    unfold set_clock_period, BKTimeIsGreater. destruct (Z.gtb_spec period 0) as [G|G]; [|exact I]. cbn [fst].
    destruct I as [[B1 B2 B3 B4 B5] T2 T3 T4]. split; cbn [cx_channels cx_delta cx_tracks cx_period cx_clocks cx_current]; try assumption.
    + split; cbn [cx_channels cx_delta cx_tracks cx_period cx_clocks cx_current]; try assumption.
      apply Forall_map. eapply Forall_impl; [|exact B5]. intros k (K1 & K2 & K3). destruct (k_id k =? 0); [|repeat split; assumption || lia].
      unfold clock_fine. cbn [k_time k_next k_period]. lia.
    + rewrite T2. destruct (cx_clocks c); cbn; split; congruence.
    + intros H. rewrite map_map. erewrite map_ext; [exact (T3 H)|]. intros k. cbn. destruct (k_id k =? 0); reflexivity.
  - destruct L as [L1 L]. exists any, master, started. split; [|auto]. assert (c' = set_pulse_kernel c kernel) as -> by congruence. clear E.
    destruct I as [[B1 B2 B3 B4 B5] T2 T3 T4]. unfold set_pulse_kernel.
    assert (KK : kernel_ok (match kernel with Some k => k | None => BKBufferStepPhasesHarm end)) by (destruct kernel; [exact L1|apply kernel_ok_harm]).
    split; try assumption. split; cbn [x_channels cx_channels cx_delta cx_tracks cx_period cx_clocks cx_current]; try assumption.
    + destruct (cx_channels c); [congruence|]. cbn. discriminate.
    + apply Forall_map. eapply Forall_impl; [|exact B2]. intros b (A1 & A2 & A3 & A4 & A5). unfold buffer_ok. cbn [b_time b_capacity b_accum b_frames b_pulse]. auto 10.
  - binv E x E1. destruct x as [[c1 w] l1]. assert (c' = c1) as -> by congruence. unfold BKContextGenerate in E1.
    destruct (generate_base _ _ _ _ _ _ _ _ (ti_base _ _ _ _ I) (proj1 (u32_range _)) E1) as (B & S & C).
    exists any, master, (started || any)%bool. split; [eapply still_tinv; eassumption|auto].
  - binv E c1 E1. assert (c' = c1) as -> by congruence. destruct (end_base _ _ _ _ (ti_base _ _ _ _ I) E1) as (B & S & _ & C & _).
    exists any, master, (started || any)%bool. split; [eapply still_tinv; eassumption|auto].
  - binv E x E1. destruct x as [[c1 w] l1]. assert (c' = c1) as -> by congruence.
    destruct (read_base _ _ _ _ _ (ti_base _ _ _ _ I) (proj1 (u32_range _)) E1) as (B & S & C & _).
    exists any, master, started. split; [|auto]. destruct I as [T1 T2 T3 T4]. split; [exact B| | |].
    + rewrite T2. split; intros H Z; apply H; [|eapply still_nil'; eassumption]. destruct S as [S _]. rewrite Z in S. destruct (cx_clocks c); [reflexivity|discriminate].
    + destruct S as [-> _]. exact T3.
    + rewrite C. exact T4.
  - destruct L as [L1 L]. binv E x E1. destruct x as [[c1 w] l1]. assert (c' = c1) as -> by congruence. unfold BKContextGenerateToTime in E1.
    destruct (generate_to_base _ _ _ _ L1 _ _ _ _ _ _ (ti_base _ _ _ _ I) E1) as (B & S & C & _).
    exists any, master, (started || any)%bool. split; [eapply still_tinv; eassumption|auto].
  - binv E c1 E1. assert (c' = c1) as -> by congruence. clear E. unfold BKContextReset in E1. binv E1 ts E2.
    match type of E1 with Ok ?x = _ => assert (c1 = x) as -> by congruence end. clear E1. exists any, master, false. split; [|auto].
    destruct I as [[B1 B2 B3 B4 B5] T2 T3 T4]. split; cbn [cx_channels cx_delta cx_tracks cx_period cx_clocks cx_current]; try reflexivity.
    + split; cbn [cx_channels cx_delta cx_tracks cx_period cx_clocks cx_current]; try assumption; try lia.
      * destruct (cx_channels c); [congruence|]. cbn. discriminate.
      * apply Forall_map. eapply Forall_impl; [|exact B2]. apply clear_ok.
      * apply Forall_map. eapply Forall_impl; [|exact B5]. intros k (K1 & K2 & K3). unfold clock_fine. cbn [k_time k_next k_period]. unfold BK_TIME_MAX. lia.
    + rewrite T2. destruct (cx_clocks c); cbn; split; congruence.
    + intros H. rewrite map_map. cbn. auto.
Qed.

Theorem clocked_runs m n : forall ops any master started c c' ls, tinv any master started c -> clocked any master started ops -> xruns m n e fuel c ops = Ok (c', ls) ->
  base c' /\ (any || has_clock ops = true -> cx_clocks c' <> []).
Proof.
  induction ops as [|o ops IH]; intros any master started c c' ls I L E; cbn [xruns] in E.
  - assert (c' = c) as -> by congruence. split; [apply I|]. cbn. rewrite orb_false_r. apply I.
  - binv E r E1. destruct r as [c1 l]. binv E r E2. destruct r as [c2 ls2]. assert (c' = c2) as -> by congruence.
    destruct (clocked_step _ _ _ _ _ _ _ _ _ _ I L E1) as (a & b & s & I1 & L1 & <-). destruct (IH _ _ _ _ _ _ I1 L1 E2) as [J1 J2]. split; [exact J1|].
    intros H. apply J2. rewrite <- H. unfold has_clock. cbn [existsb]. rewrite orb_false_r, orb_assoc. reflexivity.
Qed.

(** ** Termination *)

Lemma blamed_more c c1 x : passes e fuel c c1 -> blamed e fuel c1 x -> blamed e fuel c x.
Proof.
  intros H [->|(c2 & H2 & F)]; [left; reflexivity|]. right. exists c2. split; [|exact F]. clear F. revert H.
  induction H2 as [a|a b1 b2 q H IH Q|a b1 b2 t H IH Q|a b1 b2 k t H IH Q|a b1 b2 k l s H IH Q]; intros; [assumption|..]; specialize (IH ltac:(assumption)).
  - eapply passes_advance; [exact IH|exact Q].
  - eapply passes_run; [exact IH|exact Q].
  - eapply passes_end; [exact IH|exact Q].
  - eapply passes_read; [exact IH|exact Q].
Qed.

(** The loop of a run that ends within 2^31 ends. *)
Lemma run_loop_ends n : forall c time endTime x, base c -> cx_clocks c <> [] -> 0 <= time -> endTime <= 2147483648 -> endTime - time < Z.of_nat n ->
  run_loop n e fuel c time endTime = Err x -> blamed e fuel c x.
Proof.
  induction n as [|n IH]; intros c time endTime x B N T M LE E; cbn [run_loop] in E; destruct (Z.ltb_spec time endTime) as [Q|Q]; try discriminate; [lia|].
  destruct (BKClocksAdvance e fuel c) as [[c1 q]|y] eqn:E1; cbn [bind] in E; [|].
  - cbv zeta in E. destruct (advance_base _ _ _ B N E1) as (B1 & S1 & Q1 & C1 & D1). rewrite u32_small in E by lia.
    assert (PA : passes e fuel c c1) by (eapply passes_advance; [apply passes_here|exact E1]).
    destruct (run_units fuel c1 (time + q)) as [c2|y] eqn:E2; cbn [bind] in E.
    + destruct (run_units_base _ _ _ _ B1 E2) as (B2 & S2 & C2 & D2). pose proof (still_trans _ _ _ S1 S2) as S3.
      eapply blamed_more; [|eapply IH; [exact B2|eapply still_nil; eassumption|..|exact E]; lia]. eapply passes_run; eassumption.
    + assert (x = y) as -> by congruence. right. exists c1. split; [exact PA|]. right. eauto.
  - assert (x = y) as -> by congruence. right. exists c. split; [apply passes_here|]. left. exact E1.
Qed.

Lemma end_ends n c t x : base c -> t <= 2147483648 -> t < Z.of_nat n -> BKContextEnd n e fuel c t = Err x -> blamed e fuel c x.
Proof.
  intros B M L E. unfold BKContextEnd, BKContextRun in E.
  destruct (cx_clocks c) as [|k0 ks0] eqn:CK.
  - destruct (run_units fuel c t) as [c1|y] eqn:E1; cbn [bind] in E; [discriminate|]. assert (x = y) as -> by congruence. right. exists c. split; [apply passes_here|]. eauto.
  - destruct (run_loop n e fuel c (cx_delta c) t) as [[c1 t1]|y] eqn:E1; cbn [bind] in E; [discriminate|]. assert (x = y) as -> by congruence.
    pose proof (bs_delta _ B). eapply run_loop_ends; [exact B|congruence|..|exact E1]; lia.
Qed.

Lemma generate_ends m : forall n c rem w x, base c -> 0 <= rem < Z.of_nat m -> rem < 4294967296 -> 1073741824 < Z.of_nat n ->
  generate_loop m n e fuel c rem w = Err x -> blamed e fuel c x.
Proof.
  induction m as [|m IH]; intros n c rem w x B R M LN E; cbn [generate_loop] in E; [lia|]. cbv zeta in E.
  set (k := if rem >? BK_MAX_GENERATE_SAMPLES then BK_MAX_GENERATE_SAMPLES else rem) in E. unfold BK_MAX_GENERATE_SAMPLES in k.
  assert (K : 0 <= k <= 1024 /\ k <= rem) by (unfold k; destruct (Z.gtb_spec rem 1024); lia). clearbody k.
  rewrite Z.shiftl_mul_pow2 in E by (unfold BK_FINT20_SHIFT; lia). change (2 ^ BK_FINT20_SHIFT) with 1048576 in E. rewrite (u32_small (k * 1048576)) in E by lia.
  destruct (BKContextEnd n e fuel c (k * 1048576)) as [c1|y] eqn:E1; cbn [bind] in E.
  2:{ assert (x = y) as -> by congruence. eapply end_ends; [exact B|..|exact E1]; lia. }
  destruct (end_base _ _ _ _ B E1) as (B1 & S1 & _). assert (P1 : passes e fuel c c1) by (eapply passes_end; [apply passes_here|exact E1]).
  destruct (BKContextRead c1 k) as [[[c2 j] l]|y] eqn:E2; cbn [bind] in E.
  2:{ assert (x = y) as -> by congruence. left. unfold BKContextRead in E2. destruct (read_channels _ _) as [[[? ?] ?]|z] eqn:E3; cbn [bind] in E2; [discriminate|].
      assert (y = z) as -> by congruence. eapply read_channels_err; [apply B1|apply (proj1 (proj1 K))|exact E3]. }
  destruct (read_base _ _ _ _ _ B1 (proj1 (proj1 K)) E2) as (B2 & S2 & C2 & D2 & J & _). assert (P2 : passes e fuel c c2) by (eapply passes_read; eassumption).
  assert (J0 : 0 <= j).
  { unfold BKContextRead in E2. binv E2 r E3. destruct r as [[chs j'] l']. inversion E2; subst.
    destruct (cx_channels c1) as [|b chs0] eqn:CC; [destruct B1; congruence|]. cbn [read_channels] in E3. binv E3 r E4. destruct r as [b1 s]. binv E3 r E5.
    destruct r as [[chs1 n1] l1]. assert (j = n1) as -> by congruence. clear - E5. revert E5. generalize (length s). revert chs1 n1 l1.
    induction chs0 as [|b chs0 IH]; intros chs1 n1 l1 k E; cbn [read_channels] in E; [inversion E; lia|]. binv E r E1. destruct r as [b2 s2]. binv E r E2. destruct r as [[? ?] ?].
    inversion E; subst. eapply IH. exact E2. }
  destruct (negb _) eqn:NB; [|discriminate]. set (k' := if j =? 0 then rem else j) in E, NB.
  assert (K' : 0 <= k' <= rem /\ (0 < rem -> 0 < k')) by (unfold k'; destruct (Z.eqb_spec j 0); lia). clearbody k'. rewrite (u32_small (rem - k')) in E, NB by lia.
  destruct (generate_loop m n e fuel c2 (rem - k') (u32 (w + j))) as [[[? ?] ?]|y] eqn:E5; cbn [bind] in E; [discriminate|]. assert (x = y) as -> by congruence.
  eapply blamed_more; [exact P2|]. eapply IH; [exact B2|..|exact E5]; lia.
Qed.

(** Time left and time ahead. *)
Definition distance (T : Z) (c : context) : Z := (T - cx_current c) * 4294967296 + cx_delta c.

Lemma generate_to_ends n write T : T <= BK_TIME_MAX -> 1073741824 < Z.of_nat n -> forall m c nf k x, base c -> cx_clocks c <> [] -> distance T c < Z.of_nat m ->
  generate_to_loop m n e fuel write c T nf k = Err x -> blamed e fuel c x.
Proof.
  intros HT LN. induction m as [|m IH]; intros c nf k x B N D E; cbn [generate_to_loop] in E; unfold BKTimeIsLess in E at 1;
    destruct (Z.ltb_spec (cx_current c) T) as [L|L]; try discriminate.
  { unfold distance in D. pose proof (bs_delta _ B). lia. }
  destruct (BKTimeSub T (cx_current c)) as [d|y] eqn:E0; cbn [bind] in E.
  2:{ unfold BKTimeSub, chk64 in E0. destruct (in_s64 _); [discriminate|]. left. congruence. }
  pose proof (to_period _ _ _ HT L E0) as PR. cbv zeta in PR, E.
  set (p := if BKTimeIsLessFUInt20 d (BK_INT_MAX / 3) then BKTimeGetFUInt20 d else BK_INT_MAX / 3) in *. clearbody p.
  destruct (BKContextEnd n e fuel c p) as [c1|y] eqn:E1; cbn [bind] in E.
  2:{ assert (x = y) as -> by congruence. eapply end_ends; [exact B|..|exact E1]; lia. }
  destruct (end_base _ _ _ _ B E1) as (B1 & S1 & CC & _ & C1 & C2). assert (P1 : passes e fuel c c1) by (eapply passes_end; [apply passes_here|exact E1]).
  assert (D1 : distance T c1 < distance T c).
  { unfold distance. pose proof (bs_delta _ B). pose proof (bs_delta _ B1). destruct (Z.lt_ge_cases (cx_delta c) p) as [Q|Q].
    - specialize (C1 N Q). lia.
    - destruct (C2 N ltac:(lia)) as [-> ->]. lia. }
  pose proof (still_nil _ _ S1 N) as N1.
  assert (SZ : exists sz, BKContextSize c1 = Ok sz). { unfold BKContextSize. pose proof (bs_some _ B1). destruct (cx_channels c1); [congruence|]. eexists. reflexivity. }
  destruct SZ as [sz SZ]. rewrite SZ in E. cbn [bind] in E. destruct (_ || _).
  - destruct (BKContextRead c1 BK_MAX_GENERATE_SAMPLES) as [[[c2 j] l]|y] eqn:E2; cbn [bind] in E.
    2:{ assert (x = y) as -> by congruence. left. unfold BKContextRead in E2. destruct (read_channels _ _) as [[[? ?] ?]|z] eqn:E3; cbn [bind] in E2; [discriminate|].
        assert (y = z) as -> by congruence. eapply read_channels_err; [apply B1| |exact E3]. unfold BK_MAX_GENERATE_SAMPLES. lia. }
    destruct (read_base _ _ _ _ _ B1 max_pos E2) as (B2 & S2 & R2 & D2 & _). assert (P2 : passes e fuel c c2) by (eapply passes_read; eassumption).
    destruct (chk32 (nf + j)) as [nf2|y] eqn:E3; cbn [bind] in E.
    2:{ unfold chk32 in E3. destruct (in_s32 _); [discriminate|]. left. congruence. }
    destruct (negb _); [discriminate|].
    destruct (generate_to_loop m n e fuel write c2 T nf2 (S k)) as [[[? ?] ?]|y] eqn:E5; cbn [bind] in E; [discriminate|]. assert (x = y) as -> by congruence.
    eapply blamed_more; [exact P2|]. eapply IH; [exact B2|eapply still_nil; eassumption| |exact E5]. unfold distance in *. rewrite R2, D2. lia.
  - eapply blamed_more; [exact P1|]. eapply IH; [exact B1|exact N1| |exact E]. lia.
Qed.
End Time.
