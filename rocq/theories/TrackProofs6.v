(** Life of a track, and histories. *)
From Verif Require Import CInt CIntFacts DataModel UnitModel UnitSpec UnitProofs2 UnitInv UnitInv2 UnitInv3 UnitCount
  InterpModel InterpProofs IntervalProofs SlideIn SequenceModel SequenceProofs InstrumentProofs InstrBounds ToneModel
  TrackModel TrackSpec TrackInv TrackProofs TrackProofs2 TrackProofs3 TrackProofs4 TrackProofs5.
Ltac Zify.zify_post_hook ::= idtac.

(** ** Clear, reset, init *)

Lemma cleared_ok fuel t : unit_good (tr_unit t) -> track_ok fuel (cleared t).
Proof.
  intros G. constructor; try exact G; unfold cleared; cbn [tr_unit tr_arpDiv tr_instrDiv tr_effDiv tr_waveform tr_duty tr_samplePitch tr_master
    tr_volume tr_panning tr_curNote tr_note tr_pitch tr_tremolo tr_tremoloDelta tr_tremoloSteps tr_vibrato tr_vibratoDelta tr_vibratoSteps
    tr_arpeggio tr_instr tr_istate].
  - unfold div_ok, BK_DEFAULT_ARPEGGIO_DIVIDER. cbn. lia.
  - unfold div_ok, BK_DEFAULT_INSTR_DIVIDER. cbn. lia.
  - unfold div_ok, BK_DEFAULT_EFFECT_DIVIDER. cbn. lia.
  - reflexivity.
  - lia.
  - unfold MAX_PITCH. cbn. lia.
  - lia.
  - apply (slide_init BK_MAX_VOLUME). lia.
  - apply (slide_init BK_MAX_VOLUME). lia.
  - unfold MAX_NOTE. lia.
  - apply (slide_init 0). unfold MAX_NOTE. lia.
  - unfold MAX_PITCH. cbn. lia.
  - exact (proj2 (interval_init_inv BK_MAX_VOLUME)).
  - apply (slide_init BK_MAX_VOLUME). lia.
  - apply (slide_init BK_TRACK_EFFECT_MAX_STEPS). lia.
  - exact (proj2 (interval_init_inv 0)).
  - apply (slide_init 0). unfold MAX_VIBRATO. lia.
  - apply (slide_init BK_TRACK_EFFECT_MAX_STEPS). lia.
  - unfold arp_ok, MAX_NOTE. cbn. repeat split; try lia. repeat constructor; cbn; lia.
  - split; [cbn; lia|]. exists (repeat None 4). split; [|reflexivity]. cbn [is_states].
    assert (J : forall n, 0 <= n -> sok fuel (0, n) None sstate_zero /\ sok fuel (4, n) None sstate_zero).
    { intros n Hn. assert (0 < 2 ^ n) by (apply Z.pow_pos_nonneg; lia). unfold sok, junk, sstate_zero. cbn. repeat split; try lia. }
    unfold slot_ranges. cbn [repeat BK_MAX_SEQUENCES].
    do 4 (constructor; [apply J; lia|]). constructor.
  - reflexivity.
Qed.

(** The part of [BKTrackClear] behind the memset. *)
Lemma clear_attrs fuel t waveform duty master : unit_good (tr_unit t) -> in_s32 waveform = true -> 0 <= duty <= 15 -> 0 <= master <= 32767 ->
  exists t', (let* (t, _) := BKTrackSetAttr fuel (cleared t) BK_VOLUME BK_MAX_VOLUME in
              let* (t, _) := BKTrackSetAttr fuel t BK_MASTER_VOLUME master in
              let* (t, _) := BKTrackSetAttr fuel t BK_WAVEFORM waveform in
              let* (t, _) := BKTrackSetAttr fuel t BK_DUTY_CYCLE duty in
              let* (t, _) := BKTrackSetAttr fuel t BK_NOTE BK_NOTE_MUTE in
              let* (t, _) := BKTrackSetAttr fuel t BK_MUTE 1 in Ok t) = Ok t' /\ track_ok fuel t'.
Proof.
  intros G HW HD HM. pose proof (cleared_ok fuel t G) as H0.
  assert (A : forall t attr value, track_ok fuel t -> in_s32 value = true -> attr <> BK_PERIOD -> attr <> BK_SAMPLE_PERIOD -> attr <> BK_FLAG_RELEASE ->
    attr <> BK_ARPEGGIO_DIVIDER -> attr <> BK_EFFECT_DIVIDER -> attr <> BK_INSTRUMENT_DIVIDER -> (attr = BK_NOTE -> value <> BK_NOTE_RELEASE) ->
    exists t' r, BKTrackSetAttr fuel t attr value = Ok (t', r) /\ track_ok fuel t').
  { intros. apply attr_ok; auto; intuition congruence. }
  destruct (A _ BK_VOLUME BK_MAX_VOLUME H0) as (t1 & r1 & -> & H1); try discriminate; [reflexivity|]. cbn [bind].
  destruct (A _ BK_MASTER_VOLUME master H1) as (t2 & r2 & -> & H2); try discriminate; [apply in_s32_of; lia|]. cbn [bind].
  destruct (A _ BK_WAVEFORM waveform H2) as (t3 & r3 & -> & H3); try discriminate; [exact HW|]. cbn [bind].
  destruct (A _ BK_DUTY_CYCLE duty H3) as (t4 & r4 & -> & H4); try discriminate; [apply in_s32_of; lia|]. cbn [bind].
  destruct (A _ BK_NOTE BK_NOTE_MUTE H4) as (t5 & r5 & -> & H5); try discriminate; [reflexivity|]. cbn [bind].
  destruct (A _ BK_MUTE 1 H5) as (t6 & r6 & -> & H6); try discriminate; [reflexivity|]. cbn [bind]. eauto.
Qed.

Lemma clear_good u : unit_good u -> exists u', BKUnitClear u = Ok u' /\ unit_good u'.
Proof.
  intros (S0 & C). destruct (clear_safe u S0) as (u' & E & S' & _). exists u'. split; [exact E|]. split; [exact S'|apply (clear_counted _ _ E C)].
Qed.

Lemma clear_ok fuel t : track_ok fuel t -> exists t', BKTrackClear fuel t = Ok t' /\ track_ok fuel t'.
Proof.
  intros H. unfold BKTrackClear. cbv zeta. destruct (clear_good _ (tk_unit _ _ H)) as (u & -> & G). cbn [bind].
  destruct (set_instr_ok fuel (t_unit t u) None (ok_unit _ _ _ H G) I) as (t1 & -> & H1). cbn [bind].
  apply clear_attrs; [exact (tk_unit _ _ H1)|exact (tk_waveform _ _ H)|exact (tk_duty _ _ H)|exact (tk_master _ _ H)].
Qed.

Lemma reset_ok fuel t : track_ok fuel t -> exists t', BKTrackReset fuel t = Ok t' /\ track_ok fuel t'.
Proof.
  intros H. unfold BKTrackReset. destruct (tk_unit _ _ H) as (S0 & C). destruct (reset_safe _ S0) as (u & E & S'). rewrite E. cbn [bind].
  assert (H1 : track_ok fuel (t_unit t u)) by (apply ok_unit; [exact H|]; split; [exact S'|apply (reset_counted _ _ E C)]).
  destruct (attr_ok fuel (t_unit t u) BK_DUTY_CYCLE (Z.quot BK_SQUARE_PHASES 4) H1) as (t2 & r & E2 & H2).
  { reflexivity. } { intros [?|?]; discriminate. } { intros [(? & _)|(? & _)]; discriminate. } { intros [?|[?|?]]; discriminate. }
  rewrite E2. cbn [bind]. apply clear_ok. exact H2.
Qed.

(** A waveform that is accepted. *)
Lemma set_table u v c : waveform_phases v = Some c -> exists x, BKUnitSetAttr u BK_WAVEFORM v = Ok (x, 0) /\ un_ctx x = un_ctx u /\ ph_count (un_phase x) = c.
Proof.
  intros E. unfold BKUnitSetAttr. cbv zeta. change (BK_WAVEFORM =? BK_DUTY_CYCLE) with false. change (BK_WAVEFORM =? BK_WAVEFORM) with true. cbv iota.
  rewrite E. eexists. split; [reflexivity|]. destruct (negb _); split; reflexivity.
Qed.

Lemma init_table w c : waveform_phases (s32 w) = Some c -> exists u, BKUnitInit w = Ok u /\ unit_good u /\ un_ctx u = None.
Proof.
  intros EW. destruct (init_safe w) as (u & E & S0). exists u. split; [exact E|]. unfold BKUnitInit in E.
  change (BKUnitSetAttr unit0 BK_DUTY_CYCLE BK_DEFAULT_DUTY_CYCLE) with (Ok (set_duty unit0 2, 0)) in E. cbn [bind] in E.
  destruct (set_table (set_duty unit0 2) (s32 w) c EW) as (x & Ex & Ec & Ep). rewrite Ex in E. cbn [bind] in E.
  match type of E with Ok ?y = _ => assert (EU : u = y) by congruence end.
  split; [split; [exact S0|]|]; rewrite EU; [unfold counted; cbn; rewrite Ep; exact (phases_counted _ _ EW)|exact Ec].
Qed.

Lemma init_ok fuel w : waveform_phases (s32 w) <> None -> exists t, BKTrackInit fuel w = Ok t /\ track_ok fuel t.
Proof.
  intros HW. unfold BKTrackInit. destruct (waveform_phases (s32 w)) as [c|] eqn:EW; [|congruence]. clear HW.
  destruct (init_table w c EW) as (u & E & G0 & EC0).
  assert (K : exists t1, (let* (t, _) := BKTrackSetAttr fuel (put (t_unit track0 u) FTri true) BK_WAVEFORM (s32 w) in Ok t) = Ok t1 /\
    unit_good (tr_unit t1) /\ tr_instr t1 = None /\ in_s32 (tr_waveform t1) = true /\ tr_master t1 = 0 /\ un_ctx (tr_unit t1) = None).
  { destruct (set_table u (s32 w) c EW) as (x & Ex & Ec & Ep).
    destruct (good_attr u BK_WAVEFORM (s32 w) G0 (in_s32_s32 w)) as (x' & r & Ex' & Gx).
    { split; [intros [?|?]; discriminate|intros; discriminate]. }
    assert (x' = x) as -> by congruence.
    unfold BKTrackSetAttr. cbv zeta. change (BK_WAVEFORM =? BK_MASTER_VOLUME) with false. change (BK_WAVEFORM =? BK_VOLUME) with false.
    change (BK_WAVEFORM =? BK_PANNING) with false. change (BK_WAVEFORM =? BK_WAVEFORM) with true. cbv iota.
    change (tr_unit (put (t_unit track0 u) FTri true)) with u. rewrite Ex. cbn [bind]. change (0 =? 0) with true. cbv iota.
    unfold BKTrackUpdateUnitNote. change (un_ctx (tr_unit (BKTrackUpdateIgnoreVolume _))) with (un_ctx x). rewrite Ec, EC0. cbn [bind].
    eexists. split; [reflexivity|]. split; [exact Gx|]. split; [reflexivity|]. split; [apply in_s32_s32|]. split; [reflexivity|].
    rewrite <- EC0, <- Ec. reflexivity. }
  rewrite E. cbn [bind]. cbv zeta. destruct K as (t1 & K & G & EI & EWF & EM & EC).
  destruct (BKTrackSetAttr fuel (put (t_unit track0 u) FTri true) BK_WAVEFORM (s32 w)) as [[t2 r]|]; [|discriminate K]. cbn [bind] in K |- *.
  assert (t2 = t1) as -> by congruence. clear E K G0 EC0 u. unfold BKTrackReset.
  destruct G as (S0 & C). destruct (reset_safe _ S0) as (u & E & S'). rewrite E. cbn [bind].
  assert (U1 : unit_good u) by (split; [exact S'|apply (reset_counted _ _ E C)]).
  change (Z.quot BK_SQUARE_PHASES 4) with 4. unfold BKTrackSetAttr at 1. cbv zeta.
  change (BK_DUTY_CYCLE =? BK_MASTER_VOLUME) with false. change (BK_DUTY_CYCLE =? BK_VOLUME) with false. change (BK_DUTY_CYCLE =? BK_PANNING) with false.
  change (BK_DUTY_CYCLE =? BK_WAVEFORM) with false. change (BK_DUTY_CYCLE =? BK_DUTY_CYCLE) with true. cbv iota.
  destruct (good_attr u BK_DUTY_CYCLE 4 U1 eq_refl) as (u2 & r2 & E2 & U2).
  { split; [intros [?|?]; discriminate|intros; discriminate]. }
  change (tr_unit (t_unit t1 u)) with u. rewrite E2. cbn [bind].
  set (t3 := put (if r2 =? 0 then t_duty (t_unit (t_unit t1 u) u2) (s32 (un_duty u2)) else t_unit (t_unit t1 u) u2) FDuty true).
  assert (F3 : tr_unit t3 = u2 /\ tr_instr t3 = None /\ in_s32 (tr_waveform t3) = true /\ 0 <= tr_duty t3 <= 15 /\ tr_master t3 = 0).
  { assert (E4 : r2 = 0 /\ un_duty u2 = 4).
    { assert (N : BKUnitSetAttr u BK_DUTY_CYCLE 4 = Ok (u2, 0) /\ un_duty u2 = 4).
      { unfold BKUnitSetAttr in E2 |- *. cbv zeta in E2 |- *. change (BK_DUTY_CYCLE =? BK_DUTY_CYCLE) with true in E2 |- *. cbv iota in E2 |- *.
        change (BKClamp 4 BK_MIN_DUTY_CYCLE BK_MAX_DUTY_CYCLE) with 4 in E2 |- *.
        destruct (negb (un_duty u =? 4)) eqn:ND.
        - match type of E2 with Ok (?x, _) = _ => assert (u2 = x) as -> by congruence end. split; [reflexivity|]. destruct (_ && _); reflexivity.
        - assert (u2 = u) as -> by congruence. split; [reflexivity|]. apply negb_false_iff, Z.eqb_eq in ND. exact ND. }
      destruct N as (N1 & N2). split; [congruence|exact N2]. }
    destruct E4 as (-> & E4). unfold t3. cbn [Z.eqb]. cbn. rewrite E4. repeat split; auto; vm_compute; discriminate. }
  clearbody t3. destruct F3 as (F1 & F2 & F3 & F4 & F5). unfold BKTrackClear. cbv zeta. rewrite F1.
  destruct (clear_good u2 U2) as (u4 & -> & G4). cbn [bind].
  unfold BKTrackSetInstrument. change (tr_instr (t_unit t3 u4)) with (tr_instr t3). rewrite F2. cbn [same_instr negb bind].
  apply clear_attrs; [exact G4|exact F3|exact F4|lia].
Qed.

(** ** Context *)

Lemma attach_ok fuel t n rate time : track_ok fuel t -> 1 <= n <= 8 -> 0 <= time < 4294967296 -> uop_careful (tr_unit t) (UAttach n time) ->
  exists t' r, BKTrackAttach t n rate time = Ok (t', r) /\ track_ok fuel t'.
Proof.
  intros H Hn Ht HC. unfold BKTrackAttach. destruct (tk_unit _ _ H) as (S0 & C).
  assert (G : unit_good (fst (BKUnitAttach (tr_unit t) n time))) by (split; [apply attach_safe; auto|apply attach_counted; auto]).
  destruct (BKUnitAttach (tr_unit t) n time) as (u & r). cbn [fst] in G.
  pose proof (ok_unit _ _ _ H G) as H1. destruct (r =? 0); [|eauto]. cbv zeta.
  match goal with |- exists t' r', bind (BKTrackUpdateUnit ?T) _ = _ /\ _ => assert (H2 : track_ok fuel T) end.
  { apply ok_put; [|discriminate]. destruct (n =? 2); [apply ok_put; [|discriminate]|]; apply ok_rate; exact H1. }
  destruct (update_ok fuel _ H2) as (t' & -> & H' & _). cbn [bind]. eauto.
Qed.

Lemma detach_ok fuel t : track_ok fuel t -> track_ok fuel (BKTrackDetach t).
Proof.
  intros H. unfold BKTrackDetach. apply ok_put; [|discriminate]. apply ok_unit; [exact H|]. destruct (tk_unit _ _ H) as (S0 & C).
  split; [apply detach_safe; exact S0|apply detach_counted; exact C].
Qed.

Lemma end_ok fuel t time : track_ok fuel t -> track_ok fuel (t_unit t (BKUnitEnd (tr_unit t) time)).
Proof.
  intros H. apply ok_unit; [exact H|]. destruct (tk_unit _ _ H) as ((W & T & G) & C). split; [|exact C].
  unfold BKUnitEnd. split; [apply wf_time_set; [exact W|apply u32_range]|]. split; [exact T|]. intros E. apply good_time. apply G. exact E.
Qed.

Lemma run_ok fuel t time : track_ok fuel t -> 0 <= time ->
  (forall t', BKTrackUpdateUnit t = Ok t' -> uop_careful (tr_unit t') (URun time) /\ uop_timely fuel (tr_unit t') (URun time)) ->
  exists t' l, BKTrackRun fuel t time = Ok (t', l) /\ track_ok fuel t'.
Proof.
  intros H Ht HC. unfold BKTrackRun. destruct (update_ok fuel t H) as (t1 & E1 & H1 & _). destruct (HC _ E1) as (C1 & C2). rewrite E1. cbn [bind].
  destruct (tk_unit _ _ H1) as (S0 & C). destruct (run_safe fuel _ time S0 C1 C2 Ht) as (u & l & E & S').
  rewrite E. cbn [bind]. eexists _, _. split; [reflexivity|]. apply ok_unit; [exact H1|]. split; [exact S'|apply (run_counted _ _ _ _ _ E C)].
Qed.

(** ** Objects in use change *)

Lemma data_set_twice u x y : unit_data_state (unit_data_state u x) y = unit_data_state u y.
Proof. destruct u as [? ? ? ? ? ? ? ? ? [? ? ? ? ? ? ? ? ? ? ? ? ?] ? ? ?]. reflexivity. Qed.

Lemma callback_dispose u : unit_safe u -> exists u' r, BKUnitSampleDataStateCallback true u = Ok (u', r) /\ unit_safe u'.
Proof.
  intros U. unfold BKUnitSampleDataStateCallback. destruct (_ =? BK_CUSTOM); [|destruct (_ =? BK_SAMPLE); [|eauto]]; apply try_safe; auto; try apply U; discriminate.
Qed.

Lemma data_event_ok fuel t event : track_ok fuel t -> (forall d, event = Some d -> wdata_ok d) ->
  exists t' r, track_data_event t event = Ok (t', r) /\ track_ok fuel t'.
Proof.
  intros H HD. unfold track_data_event. destruct (sm_data (un_sample (tr_unit t))) as [d0|] eqn:E0; [|eauto].
  destruct (tk_unit _ _ H) as (S0 & C). destruct event as [d|].
  - destruct (data_event_safe (tr_unit t) (Some d) S0 HD) as (u' & r & E & S'). unfold unit_data_event in E. rewrite E0 in E.
    destruct (BKUnitSampleDataStateCallback false (unit_data_state (tr_unit t) (Some d))) as [[u1 r1]|] eqn:E1; [|discriminate E].
    cbn [bind] in E |- *. pose proof (callback_counted _ _ _ _ E1 C) as C1.
    destruct (Z.eqb_spec r1 0) as [-> |N].
    + cbn [Z.ltb Z.compare] in E |- *. assert (u1 = u') as -> by congruence.
      destruct (note_ok fuel _ (ok_unit fuel t u' H (conj S' C1))) as (u2 & -> & H2). cbn [bind]. eauto.
    + cbn [bind]. eexists _, _. split; [reflexivity|]. destruct (r1 <? 0) eqn:L.
      * change (track_ok fuel (t_unit t (unit_data_state u1 None))). assert (unit_data_state u1 None = u') as -> by congruence.
        apply ok_unit; [exact H|]. split; [exact S'|]. unfold counted in *. assert (u' = unit_data_state u1 None) as -> by congruence. exact C1.
      * assert (u1 = u') as -> by congruence. exact (ok_unit fuel t u' H (conj S' C1)).
  - destruct (callback_dispose _ S0) as (u1 & r1 & E1 & S1). pose proof (callback_counted _ _ _ _ E1 C) as C1. rewrite E1. cbn [bind].
    assert (Drop : forall t1, track_ok fuel t1 -> track_ok fuel (t_unit t1 (unit_data_state (tr_unit t1) None))).
    { intros t1 H1. apply ok_unit; [exact H1|]. destruct (tk_unit _ _ H1) as (S2 & C2). split; [apply drop_data; exact S2|exact C2]. }
    pose proof (ok_unit fuel t u1 H (conj S1 C1)) as H1. destruct (r1 =? 0).
    + destruct (note_ok fuel _ H1) as (u2 & -> & H2). cbn [bind]. eexists _, _. split; [reflexivity|]. apply (Drop _ H2).
    + cbn [bind]. eexists _, _. split; [reflexivity|]. apply (Drop _ H1).
Qed.

Lemma Forall2_upd {A B} (R : A -> B -> Prop) la lb i a b : Forall2 R la lb -> nth_error la i = Some a -> R a b -> Forall2 R la (upd lb i b).
Proof.
  intros F. revert i. induction F as [|x y la lb HR F IH]; intros i E H; [destruct i; discriminate|].
  destruct i as [|i]; cbn in *; [injection E as <-; constructor; assumption|constructor; [exact HR|apply IH; assumption]].
Qed.

Lemma instr_set_ok fuel t slot v so sl : track_ok fuel t -> top_ok fuel t (OInstrSet slot v so sl) ->
  exists t' r, track_instr_set fuel t slot v so sl = Ok (t', r) /\ track_ok fuel t'.
Proof.
  intros H (HP & HV). unfold track_instr_set. destruct (tr_instr t) as [[id instr]|] eqn:EI; [|eauto].
  destruct (tk_instr _ _ H) as (HS & sqs & F & EQ). rewrite EI in EQ. subst instr.
  unfold BKInstrumentSetSequenceValues. change (Z.of_nat BK_MAX_SEQUENCES) with 4. destruct (Z.ltb_spec slot 4) as [L|L].
  2: { cbn [bind]. exists t, BK_INVALID_ATTRIBUTE. split; [reflexivity|exact H]. }
  specialize (HV L).
  match goal with |- exists t' r, bind (bind ?X _) _ = _ /\ _ => assert (K : exists new code, X = Ok (new, code) /\
    (code = 0 -> match new with Some q => good fuel (nth (Z.to_nat slot) slot_ranges (0, 0)) q | None => True end)) end.
  { destruct v as [[|x l]|[|x l]]; [eauto|eexists _, _; split; [reflexivity|]; auto|eauto|exact HV]. }
  destruct K as (new & code & -> & HN). cbn [bind]. destruct (Z.eqb_spec code 0) as [-> |NC]; cbn [negb].
  2: { cbn [bind]. destruct (Z.eqb_spec code 0); [congruence|]. cbn [negb]. eauto. }
  specialize (HN eq_refl). pose proof (Forall3_length _ _ _ _ F) as (L1 & L2). change (length slot_ranges) with 4%nat in L1, L2.
  cbn [in_sequences BKInstrumentUpdateNumSequences]. rewrite aset_ok by lia. cbn [bind].
  assert (FG : Forall2 (fun r sq => match sq with Some q => good fuel r q | None => True end) slot_ranges (upd sqs (Z.to_nat slot) new)).
  { apply (Forall2_upd _ _ _ _ (nth (Z.to_nat slot) slot_ranges (0, 0))); [exact (sok_good _ _ _ _ F)| |exact HN].
    apply nth_error_nth'. change (length slot_ranges) with 4%nat. lia. }
  unfold BKInstrumentStateSetDefaultValues.
  destruct (defaults_ok fuel slot_ranges _ (is_states (tr_istate t)) sequenceDefaultValue slot_defaults FG L2 (pre_junk _ _ _ _ (sok_pre_all _ _ _ _ F))) as (sts & -> & F1).
  cbn [bind].
  set (s1 := mk_istate _ _ sts _) at 1.
  destruct (iphase fuel slot_ranges _ s1 0 F1 ltac:(lia) HS ltac:(lia)) as (s2 & E2 & F2 & B2 & Z2 & M2 & _).
  unfold BK_SEQUENCE_PHASE_MUTE. rewrite E2. cbn [bind]. change (negb (0 =? 0)) with false. cbv iota.
  set (t1 := t_istate (t_instr t _) s2).
  assert (H1 : track_ok fuel t1).
  { pose proof (ok_instr_on fuel t id _ s2 H F2 B2) as K. fold t1 in K. 
    assert (HF : has t FInstr = true) by (rewrite (tk_flag _ _ H), EI; reflexivity).
    destruct K as [k1 k2 k3 k4 k5 k6 k7 k8 k9 k10 k11 k12 k13 k14 k15 k16 k17 k18 k19 k20 k21 k22]. constructor; assumption || exact HF. }
  match goal with |- exists t' r, bind ?X _ = _ /\ _ => assert (K : exists t2, X = Ok t2 /\ track_ok fuel t2) end.
  { destruct (negb (is_muted s2 =? is_muted (tr_istate t))); [|eauto].
    destruct (mute_event_ok fuel t1 H1) as (t2 & E3 & (H2 & _)); [exact (Z2 eq_refl)|eauto]. }
  destruct K as (t2 & -> & H2). cbn [bind]. destruct (update_ok fuel _ (flags_ok fuel t2 true H2)) as (t3 & -> & H3 & _). cbn [bind]. eexists _, _. split; [reflexivity|exact H3].
Qed.

Lemma instr_dispose_ok fuel t : track_ok fuel t -> exists t', track_instr_dispose fuel t = Ok t' /\ track_ok fuel t'.
Proof.
  intros H. unfold track_instr_dispose. destruct (tr_instr t) as [[id i]|] eqn:EI; [|eauto].
  destruct (set_instr_ok fuel t None H I) as (t1 & E1 & H1). rewrite E1. cbn [bind state_set_instrument]. cbv zeta.
  assert (EN : tr_instr t1 = None).
  { unfold BKTrackSetInstrument in E1. rewrite EI in E1. cbn [same_instr negb state_set_instrument bind] in E1. cbv zeta in E1.
    match type of E1 with bind ?X _ = _ => destruct X as [t2|] eqn:E2; [|discriminate E1] end. cbn [bind] in E1.
    assert (t1 = BKTrackInstrumentUpdateFlags t2 true) as -> by congruence. change (tr_instr t2 = None).
    destruct (_ =? -1); [|assert (t2 = put (t_instr t None) FInstr false) as -> by congruence; reflexivity].
    unfold BKTrackSetNote in E2. change (BK_NOTE_MUTE >=? 0) with false in E2. change (BK_NOTE_MUTE =? BK_NOTE_RELEASE) with false in E2.
    change (BK_NOTE_MUTE =? BK_NOTE_MUTE) with true in E2. cbv iota in E2. unfold set_note_mute in E2. cbv zeta in E2.
    change (has _ FInstr) with false in E2. cbv iota in E2. cbn [bind] in E2. unfold unit_attr in E2.
    destruct (BKUnitSetAttr _ BK_MUTE 1) as [[u2 ?]|]; cbn [bind] in E2; [|discriminate E2].
    destruct (BKUnitSetAttr _ BK_FLAG_RELEASE 0) as [[u3 ?]|]; cbn [bind] in E2; [|discriminate E2].
    match type of E2 with Ok ?X = _ => assert (t2 = X) as -> by congruence end. reflexivity. }
  eexists. split; [reflexivity|].
  destruct H1 as [k1 k2 k3 k4 k5 k6 k7 k8 k9 k10 k11 k12 k13 k14 k15 k16 k17 k18 k19 k20 k21 k22]. rewrite EN in k21, k22. constructor; assumption.
Qed.

(** ** Histories *)

Theorem tstep_ok fuel t o : track_ok fuel t -> top_ok fuel t o -> exists t' l, tstep fuel t o = Ok (t', l) /\ track_ok fuel t'.
Proof.
  intros H HO. destruct o as [attr value|attr ptr size|event|slot v so sl| | |time|time|n rate time| | |]; cbn [tstep].
  - destruct HO as (HA & HV & HP & HR & HD). rewrite u32_id, s32_id by (unfold in_u32, in_s32 in *; lia).
    destruct (attr_ok fuel t attr value H HV HP HR HD) as (t' & r & -> & H'). cbn [bind]. eauto.
  - assert (EA : u32 attr = attr) by (destruct HO as (HA & _); apply u32_id; unfold in_u32 in HA; lia). rewrite EA.
    destruct (set_ptr_ok fuel t attr ptr size H HO) as (t' & r & -> & H'). cbn [bind]. eauto.
  - destruct (data_event_ok fuel t event H HO) as (t' & r & -> & H'). cbn [bind]. eauto.
  - destruct (instr_set_ok fuel t slot v so sl H HO) as (t' & r & -> & H'). cbn [bind]. eauto.
  - destruct (instr_dispose_ok fuel t H) as (t' & -> & H'). cbn [bind]. eauto.
  - destruct (tick_ok fuel t H) as (t' & -> & H'). cbn [bind]. eauto.
  - destruct HO as (HT & HC). assert (B : 0 <= time < 4294967296) by (unfold in_u32 in HT; lia). rewrite u32_id by exact B.
    apply run_ok; [exact H|lia|exact HC].
  - eexists _, _. split; [reflexivity|]. apply end_ok. exact H.
  - destruct HO as (Hn & HT & HC). assert (B : 0 <= time < 4294967296) by (unfold in_u32 in HT; lia). rewrite u32_id by exact B.
    destruct (attach_ok fuel t n rate time H Hn B HC) as (t' & r & -> & H'). cbn [bind]. eauto.
  - eexists _, _. split; [reflexivity|]. apply detach_ok. exact H.
  - destruct (clear_ok fuel t H) as (t' & -> & H'). cbn [bind]. eauto.
  - destruct (reset_ok fuel t H) as (t' & -> & H'). cbn [bind]. eauto.
Qed.

Theorem truns_ok fuel ops : forall t, track_ok fuel t -> all_top_ok fuel t ops -> exists t' ls, truns fuel t ops = Ok (t', ls) /\ track_ok fuel t'.
Proof.
  induction ops as [|o ops IH]; intros t H HA; [cbn; eauto|]. destruct HA as (HO & HA). cbn [truns].
  destruct (tstep_ok fuel t o H HO) as (t1 & l & E & H1). rewrite E in HA |- *. cbn [bind]. destruct (IH t1 H1 HA) as (t2 & ls & -> & H2). cbn [bind]. eauto.
Qed.
