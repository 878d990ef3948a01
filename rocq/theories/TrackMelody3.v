(** Notes which begin on a track with an instrument. *)
From Verif Require Import CInt CIntFacts DataModel UnitModel UnitSpec UnitProofs UnitProofs2 UnitProofs5 UnitInv UnitInv2 UnitInv3 UnitCount
  InterpModel InterpProofs SlideIn ToneModel PropertiesTone SequenceModel SequenceSpec SequenceProofs InstrumentProofs InstrBounds
  TrackModel TrackSpec TrackInv TrackProofs TrackProofs2 TrackProofs3 TrackProofs4 TrackProofs5 TrackProofs6 TrackVolume TrackPlay TrackTicks TrackNote TrackAttrs
  TrackInstr TrackInstr2 TrackInstr3 TrackInstr4 TrackInstr5 TrackMelody TrackMelody2.
Ltac Zify.zify_post_hook ::= idtac.
Local Notation ticked := SequenceSpec.ticked.
Local Notation played := SequenceSpec.played.

Lemma stays_flags_mono sqs t t' : stays sqs t t' -> stays sqs t (BKTrackInstrumentUpdateFlags t' false).
Proof. intros S. eapply stays_trans; [exact S|apply stays_flags]. Qed.

(** The end of [BKTrackSetNote] with a note. *)
Lemma begin_stays sqs t v t3 t4 t5 t' : (if (tr_waveform t =? BK_SAMPLE) && (tr_curNote t =? -1) then unit_attr t BK_PHASE (-1) else Ok t) = Ok t3 ->
  unit_attr (t_curNote t3 v) BK_MUTE 0 = Ok t4 -> unit_attr t4 BK_FLAG_RELEASE 0 = Ok t5 -> t' = put t5 FNote true ->
  stays sqs t t' /\ un_mute (tr_unit t') = 0 /\ tr_curNote t' = v /\ tr_note t' = tr_note t /\ tr_istate t' = tr_istate t /\ tr_instrDiv t' = tr_instrDiv t /\ has t' FNote = true /\
  settings t t' /\ any_effect t' = any_effect t /\ has t' FArp = has t FArp.
Proof.
  intros E3 E4 E5 ->.
  assert (K3 : exists u3, t3 = t_unit t u3 /\ same_unit (tr_unit t) u3).
  { destruct (_ && _).
    - apply unit_attr_inv in E3. destruct E3 as (u & r & E & ->). exists u. split; [reflexivity|]. exact (proj1 (phase_same _ _ _ _ E)).
    - exists (tr_unit t). split; [|apply same_unit_refl]. assert (t3 = t) as -> by congruence. destruct t; reflexivity. }
  destruct K3 as (u3 & -> & S3). apply unit_attr_inv in E4. destruct E4 as (u4 & r4 & E4 & ->). apply unit_attr_inv in E5. destruct E5 as (u5 & r5 & E5 & ->).
  pose proof (mute_same _ _ _ _ E4) as S4. destruct (mute_held _ _ _ _ E4) as (_ & M4). pose proof (release_same _ _ _ _ E5) as S5. destruct (release_held _ _ _ _ E5) as (_ & M5).
  cbn [tr_unit t_unit t_curNote Z.eqb] in S4, S5, M4, M5.
  split.
  { eapply stays_trans; [apply (stays_unit sqs t u5); exact (same_unit_trans _ _ _ S3 (same_unit_trans _ _ _ S4 S5))|].
    split; [reflexivity|]. split; [apply same_unit_refl|]. split; [apply empties_refl|]. intros x X. apply (proj2 (proj2 (proj2 (stays_put sqs (t_unit t u5) FNote)))). exact X. }
  split; [change (un_mute u5 = 0); congruence|]. repeat (split; [reflexivity|]). split; [repeat split|]. split; reflexivity.
Qed.

(** A note is set while another is held. *)
Lemma ready_legato fuel sqs d t v : ready fuel sqs d t -> tr_curNote t <> -1 -> 0 <= v ->
  exists t', BKTrackSetNote fuel t v = Ok t' /\ ready fuel sqs d t' /\ settings t t' /\ un_mute (tr_unit t') = 0 /\ tr_curNote t' = Z.min v MAX_NOTE /\
    BKSlideStateGetValue (tr_note t') = Ok (Z.min v MAX_NOTE) /\ tr_istate t' = tr_istate t /\ tr_instrDiv t' = tr_instrDiv t.
Proof.
  intros RD HC HV. pose proof (rd_ok _ _ _ _ RD) as H. destruct (rd_smooth _ _ _ _ RD) as (S0 & B0).
  destruct (set_note_ok fuel t v H ltac:(unfold BK_NOTE_RELEASE; intros ->; lia)) as (t' & E & H'). exists t'. split; [exact E|].
  assert (BN : 0 <= Z.min v MAX_NOTE <= MAX_NOTE) by (unfold MAX_NOTE; lia).
  destruct (in_value 0 0 MAX_NOTE ltac:(lia) (target0 0 ltac:(lia)) (target0 MAX_NOTE ltac:(unfold MAX_NOTE; lia)) (tr_note t) _ (tk_note _ _ H) BN) as (sl & ES & I & EV & SS & EB).
  destruct (EB S0) as (VV & BB). change (P 0) with 1 in *. clear EB.
  unfold BKTrackSetNote in E. rewrite Z.geb_leb in E. destruct (Z.leb_spec 0 v) as [_|C]; [|lia]. rewrite (min_note v HV) in E. cbv zeta in E.
  rewrite ES in E. cbn [bind] in E. set (n := Z.min v MAX_NOTE) in *. clearbody n.
  change (tr_curNote (t_note t sl)) with (tr_curNote t) in E. destruct (Z.eqb_spec (tr_curNote t) (-1)) as [C|_]; [contradiction|]. cbn [bind] in E.
  set (t0 := t_note t sl) in *. apply bind_inv in E. destruct E as (t3 & E3 & E). apply bind_inv in E. destruct E as (t4 & E4 & E). apply bind_inv in E. destruct E as (t5 & E5 & E).
  assert (ET : t' = put t5 FNote true) by congruence. clear E.
  destruct (begin_stays sqs t0 n t3 t4 t5 t' E3 E4 E5 ET) as (ST & MU & CU & NO & IS & DI & FN & SE & EF & AR).
  assert (ST0 : stays sqs t t0) by (split; [reflexivity|]; split; [apply same_unit_refl|]; split; [apply empties_refl|auto]).
  pose proof (stays_trans _ _ _ _ ST0 ST) as SA. assert (SE0 : settings t t') by exact SE.
  split; [|split; [exact SE0|]; split; [exact MU|]; split; [exact CU|]; split; [|split; [exact IS|exact DI]]].
  - pose proof RD as [_ SL HE HA HCT T DV _ EM SU]. pose proof SA as (A1 & (A2 & A3 & A4 & A5) & A6 & A7). constructor.
    + exact H'.
    + destruct SL as (id & EI). exists id. congruence.
    + rewrite EF. exact HE.
    + rewrite AR. exact HA.
    + congruence.
    + destruct T as (TV & TN & TD). split; [|split; [left; exact FN|]].
      * destruct TV as [TV|(l & ML & VL & BL)]; [left; apply A7; exact TV|right]. exists l. destruct (effect_on t HE) as (_ & _ & _ & EF4 & _).
        assert (EF4' : has t' FTremolo = false) by (assert (HE' : any_effect t' = false) by (rewrite EF; exact HE); exact (proj1 (proj2 (proj2 (proj2 (effect_on t' HE')))))).
        destruct (track_slots fuel sqs t H SL) as (_ & HI). pose proof (A7 _ HI) as HI'.
        destruct SE0 as (Q1 & Q2 & Q3 & Q4 & Q5 & Q6 & Q7). split; [|split].
        -- destruct ML as (ML1 & ML2 & ML3 & ML4 & ML5 & ML6 & ML7). unfold measures, slot_value. rewrite IS, Q1, Q2, Q3, Q6, Q7, HI', EF4'. rewrite HI in ML6. rewrite EF4 in ML7.
           repeat (split; [assumption|]). destruct (lv_tremolo l) as [x|]; [destruct ML7 as (Z1 & _); congruence|exact ML7].
        -- intros k HK. rewrite <- (VL k HK). destruct (tk_unit _ _ H) as ((W & _) & _). destruct (tk_unit _ _ H') as ((W' & _) & _).
           rewrite !volume_attr by (first [destruct (lv_stereo l); lia|rewrite (proj1 (wf_volume _ W)); destruct (lv_stereo l); lia|rewrite (proj1 (wf_volume _ W')); destruct (lv_stereo l); lia]). rewrite A2. reflexivity.
        -- rewrite Q3. exact BL.
      * destruct TD as [TD|(x & Ex & Px)]; [left; apply A7; exact TD|right]. exists x. split; [|rewrite duty_attr in *; rewrite A3; exact Px].
        destruct (track_slots fuel sqs t H SL) as (_ & HI). pose proof (A7 _ HI) as HI'. destruct SE0 as (Q1 & Q2 & Q3 & Q4 & Q5 & Q6 & Q7). unfold duty_value, slot_value in *. rewrite IS, HI', Q5. rewrite HI in Ex. exact Ex.
    + rewrite DI. exact DV.
    + rewrite NO. cbn [tr_note t_note t0]. split; [change (sl_steps sl = 0); congruence|change (sl_roundBias sl = 0); congruence].
    + rewrite IS. exact EM.
    + congruence.
  - rewrite NO. change (BKSlideStateGetValue sl = Ok n). rewrite (get_value 0); [|exact (proj1 I)|lia]. rewrite VV, BB, B0, Z.div_1_r. f_equal. lia.
Qed.

(** A note is set while none is held: the sequences begin. *)
Lemma ready_attack fuel sqs d t v : ready fuel sqs d t -> tr_curNote t = -1 -> 0 <= v ->
  exists t' sts, BKTrackSetNote fuel t v = Ok t' /\ ready fuel sqs d t' /\ settings t t' /\ un_mute (tr_unit t') = 0 /\ tr_curNote t' = Z.min v MAX_NOTE /\
    voice fuel sqs d 0 (Z.min v MAX_NOTE) t' /\ is_phase (tr_istate t') = 1 /\ is_states (tr_istate t') = phased fuel sqs 1 sts /\ Forall2 (slot_ok fuel) sqs sts.
Proof.
  intros RD HC HV. pose proof RD as [H SL HE HA HCT T DV (S0 & B0) EM SU].
  destruct (note_attack fuel t v sqs H SL HC HV S0 B0) as (t2 & sts & E2 & H2 & P2 & C2 & MU2 & G2 & FN2 & FV2 & FD2 & PL2 & PH2 & S2 & F2 & K2).
  exists t2, sts. split; [exact E2|].
  destruct (track_slots fuel sqs t H SL) as (F & HI). pose proof SL as (id & EI).
  assert (X : stays sqs t t2 /\ flagged t2 /\ tr_curNote t2 = Z.min v MAX_NOTE /\ sl_steps (tr_note t2) = 0 /\ sl_roundBias (tr_note t2) = 0).
  { assert (BN : 0 <= Z.min v MAX_NOTE <= MAX_NOTE) by (unfold MAX_NOTE; lia).
    destruct (in_value 0 0 MAX_NOTE ltac:(lia) (target0 0 ltac:(lia)) (target0 MAX_NOTE ltac:(unfold MAX_NOTE; lia)) (tr_note t) _ (tk_note _ _ H) BN) as (sl & ES & I & EV & SS & EB).
    destruct (EB S0) as (VV & BB). change (P 0) with 1 in *. clear EB. pose proof E2 as E.
    unfold BKTrackSetNote in E. rewrite Z.geb_leb in E. destruct (Z.leb_spec 0 v) as [_|C]; [|lia]. rewrite (min_note v HV) in E. cbv zeta in E.
    rewrite ES in E. cbn [bind] in E. set (n := Z.min v MAX_NOTE) in *. clearbody n.
    change (tr_curNote (t_note t sl)) with (tr_curNote t) in E. change (has (t_note (t_note t sl) (BKSlideStateHalt (tr_note (t_note t sl)) true)) FInstr) with (has t FInstr) in E.
    rewrite HI, HC in E. cbn [Z.eqb Pos.eqb] in E. set (t1 := t_note (t_note t sl) _) in E.
    assert (H1 : track_ok fuel t1) by (unfold t1; apply ok_note; [apply ok_note; [exact H|exact I]|]; apply in_halt; exact I).
    destruct (attack_ok fuel t1 H1) as (ta & Ea & (Ha & _ & Pa)). rewrite Ea in E. cbn [bind] in E. set (tb := t_arpeggio ta _) in E.
    apply bind_inv in E. destruct E as (t3 & E3 & E). apply bind_inv in E. destruct E as (t4 & E4 & E). apply bind_inv in E. destruct E as (t5 & E5 & E).
    assert (ET : t2 = put t5 FNote true) by congruence. clear E.
    destruct (begin_stays sqs tb n t3 t4 t5 t2 E3 E4 E5 ET) as (ST & _ & CU & NO & _).
    unfold BKTrackInstrumentAttack in Ea. apply bind_inv in Ea. destruct Ea as (tc & Ec & Ea). cbv zeta in Ea. apply bind_inv in Ea. destruct Ea as (td & Ed & Ea).
    assert (EA : ta = BKTrackInstrumentUpdateFlags td false) by congruence. clear Ea.
    pose proof (init_stays id sqs t1 tc EI Ec) as Kc. set (te := t_instrDiv tc (zero_counter (tr_instrDiv tc))) in *.
    assert (EIc : tr_instr te = Some (id, BKInstrumentUpdateNumSequences sqs)) by (change (tr_instr tc = Some (id, BKInstrumentUpdateNumSequences sqs)); rewrite (proj1 Kc); exact EI).
    assert (HIc : has te FInstr = true) by (apply (proj2 (proj2 (proj2 Kc)) FInstr); exact HI).
    destruct (set_phase_stays fuel id sqs te _ _ EIc HIc Ed) as (Kd & _). pose proof (set_phase_keeps fuel id sqs te _ _ EIc Ed) as (Qd1 & Qd2 & _).
    pose proof (init_keeps id sqs t1 tc EI Ec) as (Qc1 & Qc2 & _).
    assert (Kb : stays sqs ta tb) by (split; [reflexivity|]; split; [apply same_unit_refl|]; split; [apply empties_refl|auto]).
    split; [|split; [|split; [exact CU|]]].
    - eapply stays_trans; [|exact ST]. eapply stays_trans; [|exact Kb]. rewrite EA. apply stays_flags_mono. eapply stays_trans; [|exact Kd].
      exact Kc.
    - apply (stays_flagged _ _ _ ST), (stays_flagged _ _ _ Kb). rewrite EA. apply flags_flagged.
    - rewrite NO. change (tr_note tb) with (tr_note ta). rewrite EA.
      assert (EN : tr_note (BKTrackInstrumentUpdateFlags td false) = tr_note td) by (destruct (flags_marks td false) as (? & ? & ? & ? & ->); reflexivity). rewrite EN, Qd1, Qd2.
      change (tr_note te) with (tr_note tc). rewrite Qc1, Qc2. split; [change (sl_steps sl = 0); congruence|change (sl_roundBias sl = 0); congruence]. }
  destruct X as (ST & FL & CU & S0' & B0').
  destruct (play_fields _ _ P2) as (R2 & D2 & W2 & Y2 & X2 & M2 & V2 & A2 & T2 & I2 & G1).
  assert (G : forall y, y <> FVolume -> y <> FNote -> y <> FDuty -> has t2 y = has t y) by (intros y Y0 Y3 Y4; rewrite (G1 y Y0 Y3 Y4); reflexivity).
  assert (HE2 : any_effect t2 = false) by (unfold any_effect; rewrite !G by discriminate; exact HE).
  assert (HA2 : has t2 FArp = false) by (rewrite G by discriminate; exact HA).
  assert (SE : settings t t2) by (unfold settings; rewrite !G by discriminate; repeat split; assumption).
  assert (SL2 : slots fuel sqs t2) by (exists id; rewrite I2; exact EI).
  assert (T2' : told t2) by (apply (told_stays fuel sqs t t2 H H2 SL ST SE FL HE HE2 HA HA2); [left; exact FN2|exact T]).
  assert (EM2 : defaulted sqs (is_states (tr_istate t2))) by (exact (defaulted_empties _ _ _ (proj1 (proj2 (proj2 ST))) EM)).
  assert (HC2 : un_ctx (tr_unit t2) <> None) by (rewrite C2; exact HCT).
  assert (HD : 1 <= d) by (rewrite <- DV; destruct (tk_instrDiv _ _ H) as (X & _); lia).
  split; [|split; [exact SE|]; split; [exact MU2|]; split; [exact CU|]; split; [|auto]].
  - constructor; try assumption; [rewrite D2; exact DV|auto|]. destruct ST as (_ & (_ & _ & US & _) & _). congruence.
  - constructor; try assumption. rewrite D2. cbn [tr_instrDiv t_arpeggio t_instrDiv]. unfold zero_counter. rewrite DV. change (- Z.of_nat 0) with 0. rewrite Z.mod_0_l by lia. reflexivity.
Qed.
