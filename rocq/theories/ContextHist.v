(** After a legal program a context is able to generate. *)
From Verif Require Import CInt CIntFacts TimeModel Kernels BufferModel BufferSpec BufferProofs BufferProofs2 DataModel UnitModel TrackModel TrackTime UnitShift
  ContextModel ContextSpec ContextSame ContextShift ContextRun ContextChunk ContextGen ContextGen2.
Ltac Zify.zify_post_hook ::= idtac.

Lemma env_ok_plain e : env_ok e <-> env_plain e.
Proof. reflexivity. Qed.

Record inv (started : bool) (ids : list Z) (c : context) : Prop := {
  iv_channels : Forall fine (cx_channels c);
  iv_some : cx_channels c <> [];
  iv_delta : 0 <= cx_delta c <= 715827882;
  iv_full : full (cx_delta c) c;
  iv_tracks : good (cx_delta c) (cx_tracks c);
  iv_ids : map fst (cx_tracks c) = ids;
  iv_period : 0 < cx_period c;
  iv_clocks : Forall (clock_fine (cx_current c)) (cx_clocks c);
  iv_master : ids <> [] \/ started = true -> In 0 (map k_id (cx_clocks c));
  iv_start : started = false -> cx_current c = 0 /\ cx_delta c = 0 }.

Lemma inv_able started ids c : inv started ids c -> ids <> [] -> able c.
Proof.
  intros [I1 I2 I3 I4 I5 I6 I7 I8 I9 I10] N. split.
  - split; try assumption. intros Z. specialize (I9 (or_introl N)). rewrite Z in I9. destruct I9.
  - intros Z. rewrite Z in I6. cbn in I6. congruence.
Qed.

Lemma fine_init : fine BKBufferInit.
Proof.
  split; [apply init_ok|]. split; [reflexivity|]. intros i _. unfold cell, BKBufferInit. cbn [b_frames]. apply nth_repeat.
Qed.
Lemma fine_clear b : fine b -> fine (BKBufferClear b).
Proof.
  intros (B & _). split; [apply clear_ok; exact B|]. split; [reflexivity|]. intros i _. unfold cell, BKBufferClear. cbn [b_frames]. apply nth_repeat.
Qed.

Lemma init_inv nc rate period : 0 < period -> inv false [] (BKContextInit nc rate period).
Proof.
  intros P. assert (N : (0 < Z.to_nat (BKClamp (u32 nc) 1 BK_MAX_CHANNELS))%nat).
  { generalize (u32 nc). intros z. unfold BKClamp, BK_MAX_CHANNELS. destruct (Z.ltb_spec z 1); [lia|]. destruct (Z.gtb_spec z 8); lia. }
  split; cbn [BKContextInit cx_channels cx_delta cx_tracks cx_period cx_clocks cx_current].
  - apply Forall_forall. intros b Hb. apply repeat_spec in Hb. subst. apply fine_init.
  - destruct (Z.to_nat _); [lia|]. cbn. discriminate.
  - lia.
  - unfold full. cbn [BKContextInit cx_channels]. apply Forall_forall. intros b Hb. apply repeat_spec in Hb. subst. cbn. lia.
  - constructor.
  - reflexivity.
  - exact P.
  - constructor.
  - intros [H|H]; [congruence|discriminate].
  - auto.
Qed.

Lemma attach_good t n rate delta t' ret : track_free t -> BKTrackAttach t n rate delta = Ok (t', ret) ->
  ret = 0 /\ un_time (tr_unit t') = delta /\ Pt t'.
Proof.
  intros (F1 & F2) E. unfold BKTrackAttach, BKUnitAttach in E. rewrite F1 in E. change (0 =? 0) with true in E. cbv zeta in E. cbn iota in E.
  binv E t1 E1. assert (t' = t1) as -> by congruence. split; [congruence|].
  assert (Q : Pt t -> Pt (t_unit t (set_time (set_ctx (tr_unit t) (Some n)) delta))) by (intros H; exact H).
  match type of E1 with BKTrackUpdateUnit ?x = _ => assert (U : un_time (tr_unit x) = delta) by (destruct (n =? 2); reflexivity);
    assert (PX : Pt x) by (destruct (n =? 2); exact F2) end.
  split; [rewrite (update_time _ _ E1); exact U|]. pose proof (update_keep _ PX) as K. rewrite E1 in K. exact K.
Qed.

Lemma reset_good fuel t t' : Pt t -> BKTrackReset fuel t = Ok t' -> un_time (tr_unit t') = 0 /\ Pt t'.
Proof.
  intros P E. unfold BKTrackReset in E. binv E u E1. unfold BKUnitReset in E1. binv E1 v E2. pose proof (clear_keep _ P) as K. rewrite E2 in K. cbn [holds] in K.
  match type of E1 with Ok ?x = _ => assert (u = x) as -> by congruence end.
  match type of E with context [t_unit t ?x] => assert (PX : Pt (t_unit t x)) by exact K; assert (UX : un_time (tr_unit (t_unit t x)) = 0) by reflexivity;
    set (y := t_unit t x) in * end. clearbody y.
  binv E r E3. destruct r as [z r]. pose proof (track_attr_keep fuel y BK_DUTY_CYCLE (Z.quot BK_SQUARE_PHASES 4) PX (or_introl eq_refl)) as K1. rewrite E3 in K1.
  cbn [holds Ptp fst] in K1.
  assert (U1 : un_time (tr_unit z) = 0).
  { rewrite <- UX. apply (tstep_time fuel y (OAttr BK_DUTY_CYCLE (Z.quot BK_SQUARE_PHASES 4)) z []); [reflexivity|].
    cbn [tstep]. change (u32 BK_DUTY_CYCLE) with BK_DUTY_CYCLE. change (s32 (Z.quot BK_SQUARE_PHASES 4)) with (Z.quot BK_SQUARE_PHASES 4). rewrite E3. reflexivity. }
  pose proof (track_clear_keep fuel z K1) as K2. rewrite E in K2. split; [|exact K2].
  rewrite <- U1. apply (tstep_time fuel z OClear t' []); [reflexivity|]. cbn [tstep]. rewrite E. reflexivity.
Qed.

Lemma reset_tracks_good fuel : forall ts ts', Forall (fun it => Pt (snd it)) ts -> reset_tracks fuel ts = Ok ts' -> good 0 ts' /\ map fst ts' = map fst ts.
Proof.
  induction ts as [|[i t] ts IH]; intros ts' F E; cbn [reset_tracks] in E.
  - assert (ts' = []) as -> by congruence. split; [constructor|reflexivity].
  - inversion F as [|? ? F1 F2]; subst. binv E t1 E1. binv E ts1 E2. match type of E with Ok ?x = _ => assert (ts' = x) as -> by congruence end.
    destruct (IH _ F2 E2) as [G1 G2]. destruct (reset_good _ _ _ F1 E1) as [H1 H2]. split.
    + constructor; [|exact G1]. cbn [snd]. split; [exact H2|]. rewrite H1. lia.
    + cbn. rewrite G2. reflexivity.
Qed.

Lemma ones_steady e fuel n c c' l : env_plain e -> ones e fuel n c c' l -> able c ->
  map fst (cx_tracks c') = map fst (cx_tracks c) /\ map k_id (cx_clocks c') = map k_id (cx_clocks c) /\ cx_period c' = cx_period c.
Proof.
  intros P. induction 1 as [c|n N c c1 c2 l1 l2 C O IH]; intros [R NT]; [auto|].
  destruct (chunk_ready e fuel c 1 N c1 1 l1 P R NT ltac:(lia) C) as (A & _ & _ & _ & B & _ & D & _ & F & _).
  destruct IH as (I1 & I2 & I3); [split; [exact A|apply (fst_nil (cx_tracks c)); assumption]|]. repeat split; congruence.
Qed.

Lemma filter_fst (f : Z -> bool) (ts : list (Z * track)) : map fst (filter (fun it => f (fst it)) ts) = filter f (map fst ts).
Proof. induction ts as [|[i t] ts IH]; [reflexivity|]. cbn. destruct (f i); cbn; rewrite IH; reflexivity. Qed.

Lemma Forall_filter {A} (P : A -> Prop) f l : Forall P l -> Forall P (filter f l).
Proof. induction 1 as [|x l H F IH]; [constructor|]. cbn. destruct (f x); [constructor|]; assumption. Qed.

(** Whether frames have been generated since the last reset, after a call. *)
Definition after (started : bool) (o : xop) : bool := match o with XGenerate _ => true | XReset => false | _ => started end.

Section Step.
Variable m n : nat.
Variable e : env.
Variable fuel : nat.
Hypothesis P : env_ok e.

Lemma legal_step started ids c o ops c' l : inv started ids c -> legal started ids (o :: ops) -> xstep m n e fuel c o = Ok (c', l) ->
  exists started' ids', inv started' ids' c' /\ legal started' ids' ops /\ attached ids' ops = attached ids (o :: ops) /\ started' = after started o.
Proof.
  intros I L E. destruct o; cbn [legal attached] in *; cbn [xstep] in E; try contradiction.
  - (* XAttachClock *)
    destruct L as (L1 & L2 & L3 & L). assert (c' = attach_clock c id period) as -> by congruence. exists started, ids. split; [|auto].
    destruct I as [I1 I2 I3 I4 I5 I6 I7 I8 I9 I10]. destruct (I10 L1) as [J1 J2]. unfold attach_clock.
    split; cbn [x_clocks cx_channels cx_delta cx_tracks cx_period cx_clocks cx_current]; try assumption.
    + apply Forall_app. split; [assumption|]. constructor; [|constructor]. unfold clock_fine. cbn [k_time k_next k_period]. rewrite J1. unfold BK_TIME_MAX. lia.
    + intros H. rewrite map_app. apply in_or_app. left. auto.
  - (* XAttachTrack *)
    destruct L as [L1 L]. binv E r E1. destruct r as [c1 r]. assert (c' = c1) as -> by congruence. clear E. unfold attach_track in E1. binv E1 x E2. destruct x as [t1 ret].
    destruct (attach_good _ _ _ _ _ _ L1 E2) as (-> & U & Q). change (0 =? 0) with true in E1. cbn iota in E1.
    match type of E1 with Ok (?x, _) = _ => assert (c1 = x) as -> by congruence end. clear E1. exists started, (ids ++ [id]). split; [|auto].
    destruct I as [I1 I2 I3 I4 I5 I6 I7 I8 I9 I10].
    assert (G : good (cx_delta c) (cx_tracks c ++ [(id, t1)])).
    { apply Forall_app. split; [exact I5|]. constructor; [|constructor]. cbn [snd]. split; [exact Q|]. rewrite U. lia. }
    assert (IDS : map fst (cx_tracks c ++ [(id, t1)]) = ids ++ [id]) by (rewrite map_app, I6; reflexivity).
    unfold attach_master. cbn [x_tracks cx_period cx_clocks]. unfold BKTimeIsGreater. replace (cx_period c >? 0) with true by lia.
    destruct (existsb _ (cx_clocks c)) eqn:X.
    + split; cbn [x_tracks cx_channels cx_delta cx_tracks cx_period cx_clocks cx_current]; try assumption.
      intros _. apply existsb_exists in X. destruct X as (k & K1 & K2). apply in_map_iff. exists k. split; [lia|exact K1].
    + assert (ST : started = false).
      { destruct started; [|reflexivity]. specialize (I9 (or_intror eq_refl)). apply in_map_iff in I9. destruct I9 as (k & K1 & K2).
        assert (existsb (fun k => k_id k =? 0) (cx_clocks c) = true) by (apply existsb_exists; exists k; split; [exact K2|lia]). congruence. }
      destruct (I10 ST) as [J1 J2]. split; cbn [x_tracks x_clocks cx_channels cx_delta cx_tracks cx_period cx_clocks cx_current]; try assumption.
      * constructor; [|exact I8]. unfold clock_fine. cbn [k_time k_next k_period]. rewrite J1. unfold BK_TIME_MAX. lia.
      * intros _. left. reflexivity.
  - (* XDetachTrack *)
    assert (c' = detach_track c id) as -> by congruence. eexists started, _. split; [|split; [exact L|split; reflexivity]].
    destruct I as [I1 I2 I3 I4 I5 I6 I7 I8 I9 I10]. unfold detach_track.
    split; cbn [x_tracks cx_channels cx_delta cx_tracks cx_period cx_clocks cx_current]; try assumption.
    + apply Forall_filter. exact I5.
    + rewrite (filter_fst (fun i => negb (i =? id))), I6. reflexivity.
    + intros [H|H]; apply I9; [left|right; exact H]. intros Z. rewrite Z in H. apply H. reflexivity.
  - (* XTrack *)
    destruct L as [L1 L]. binv E ts E1. assert (c' = x_tracks c ts) as -> by congruence. exists started, ids. split; [|auto].
    assert (K : kept (cx_tracks c) ts) by (eapply call_track_kept; [|exact E1]; exact L1).
    destruct I as [I1 I2 I3 I4 I5 I6 I7 I8 I9 I10].
    split; cbn [x_tracks cx_channels cx_delta cx_tracks cx_period cx_clocks cx_current]; try assumption.
    + eapply kept_good; eassumption.
    + rewrite (kept_fst _ _ K). exact I6.
  - (* XPeriod *)
    exists started, ids. split; [|auto]. assert (c' = fst (set_clock_period c period)) as -> by congruence. clear E.
    unfold set_clock_period, BKTimeIsGreater. destruct (Z.gtb_spec period 0) as [G|G]; [|exact I]. cbn [fst].
    destruct I as [I1 I2 I3 I4 I5 I6 I7 I8 I9 I10]. split; cbn [cx_channels cx_delta cx_tracks cx_period cx_clocks cx_current]; try assumption.
    + apply Forall_map. eapply Forall_impl; [|exact I8]. intros k (K1 & K2 & K3). destruct (k_id k =? 0); [|repeat split; assumption || lia].
      unfold clock_fine. cbn [k_time k_next k_period]. lia.
    + intros H. rewrite map_map. erewrite map_ext; [exact (I9 H)|]. intros k. cbn. destruct (k_id k =? 0); reflexivity.
  - (* XKernel *)
    destruct L as [L1 L]. exists started, ids. split; [|auto]. assert (c' = set_pulse_kernel c kernel) as -> by congruence. clear E.
    destruct I as [I1 I2 I3 I4 I5 I6 I7 I8 I9 I10]. unfold set_pulse_kernel.
    assert (KK : kernel_ok (match kernel with Some k => k | None => BKBufferStepPhasesHarm end)) by (destruct kernel; [exact L1|apply kernel_ok_harm]).
    split; cbn [x_channels cx_channels cx_delta cx_tracks cx_period cx_clocks cx_current]; try assumption.
    + apply Forall_map. eapply Forall_impl; [|exact I1]. intros b ((B1 & B2 & B3 & B4 & B5) & B6 & B7). unfold fine, buffer_ok. cbn [b_time b_capacity b_accum b_frames b_pulse].
      auto 10.
    + destruct (cx_channels c); [congruence|]. cbn. discriminate.
    + unfold full in *. cbn [x_channels cx_channels]. apply Forall_map. exact I4.
  - (* XGenerate *)
    destruct L as [L1 L]. binv E x E1. destruct x as [[c1 w] l1]. assert (c' = c1) as -> by congruence. clear E. unfold BKContextGenerate in E1.
    pose proof (inv_able _ _ _ I L1) as A. assert (S : 0 <= u32 size < 4294967296) by (apply u32_range).
    apply (generate_ones e fuel P) in E1; [|exact A|lia|lia|lia]. destruct E1 as [_ O]. destruct (ones_able e fuel P _ _ _ _ O A) as ([R NT] & _).
    destruct (ones_steady _ _ _ _ _ _ P O A) as (S1 & S2 & S3). exists true, ids. split; [|auto].
    destruct I as [I1 I2 I3 I4 I5 I6 I7 I8 I9 I10]. destruct R as [R1 R2 R3 R4 R5 R6 R7]. split; try assumption; try congruence.
    rewrite S2. intros _. auto.
  - (* XReset *)
    binv E c1 E1. assert (c' = c1) as -> by congruence. clear E. unfold BKContextReset in E1. binv E1 ts E2.
    match type of E1 with Ok ?x = _ => assert (c1 = x) as -> by congruence end. clear E1. exists false, ids. split; [|auto].
    destruct I as [I1 I2 I3 I4 I5 I6 I7 I8 I9 I10].
    destruct (reset_tracks_good fuel (cx_tracks c) ts) as [G1 G2]; [eapply Forall_impl; [|exact I5]; intros it H; apply H|exact E2|].
    split; cbn [cx_channels cx_delta cx_tracks cx_period cx_clocks cx_current]; try assumption; try lia.
    + apply Forall_map. eapply Forall_impl; [|exact I1]. apply fine_clear.
    + destruct (cx_channels c); [congruence|]. cbn. discriminate.
    + unfold full. cbn [cx_channels]. apply Forall_map. apply Forall_forall. intros b _. cbn. lia.
    + congruence.
    + apply Forall_map. eapply Forall_impl; [|exact I8]. intros k (K1 & K2 & K3). unfold clock_fine. cbn [k_time k_next k_period]. unfold BK_TIME_MAX. lia.
    + intros [H|H]; [|discriminate]. rewrite map_map. cbn. auto.
Qed.

Theorem legal_runs : forall ops started ids c c' ls, inv started ids c -> legal started ids ops -> xruns m n e fuel c ops = Ok (c', ls) ->
  exists started', inv started' (attached ids ops) c'.
Proof.
  induction ops as [|o ops IH]; intros started ids c c' ls I L E; cbn [xruns] in E.
  - assert (c' = c) as -> by congruence. exists started. exact I.
  - binv E r E1. destruct r as [c1 l]. binv E r E2. destruct r as [c2 ls2]. assert (c' = c2) as -> by congruence.
    destruct (legal_step _ _ _ _ _ _ _ I L E1) as (s & i & I1 & L1 & <- & _). eapply IH; eassumption.
Qed.

Corollary legal_able nc rate period ops c ls : 0 < period -> legal false [] ops -> attached [] ops <> [] ->
  xruns m n e fuel (BKContextInit nc rate period) ops = Ok (c, ls) -> able c.
Proof.
  intros Q L A E. destruct (legal_runs _ _ _ _ _ _ (init_inv nc rate period Q) L E) as [s I]. eapply inv_able; eassumption.
Qed.
End Step.
