(** A note with an instrument which is released. *)
From Verif Require Import CInt CIntFacts DataModel UnitModel UnitSpec UnitProofs UnitProofs2 UnitProofs5 UnitInv UnitInv2 UnitInv3 UnitCount
  InterpModel InterpProofs SlideIn ToneModel PropertiesTone SequenceModel SequenceSpec SequenceProofs InstrumentProofs InstrBounds
  TrackModel TrackSpec TrackInv TrackProofs TrackProofs2 TrackProofs3 TrackProofs4 TrackProofs5 TrackProofs6 TrackVolume TrackPlay TrackTicks TrackNote TrackAttrs TrackInstr TrackInstr2 TrackInstr3.
Ltac Zify.zify_post_hook ::= idtac.
Local Notation ticked := SequenceSpec.ticked.
Local Notation played := SequenceSpec.played.

(** ** A track which plays a note with an instrument *)

(** What the listener hears is set by these; they do not change. *)
Definition settings (t t' : track) : Prop :=
  tr_volume t' = tr_volume t /\ tr_panning t' = tr_panning t /\ tr_master t' = tr_master t /\ tr_pitch t' = tr_pitch t /\ tr_duty t' = tr_duty t /\
  has t' FIgnore = has t FIgnore /\ has t' FPan = has t FPan.
Lemma settings_refl t : settings t t.
Proof. repeat split. Qed.
Lemma settings_trans t1 t2 t3 : settings t1 t2 -> settings t2 t3 -> settings t1 t3.
Proof. intros (A1 & A2 & A3 & A4 & A5 & A6 & A7) (B1 & B2 & B3 & B4 & B5 & B6 & B7). repeat split; congruence. Qed.

(** The instrument [sqs] plays [note]; [j] ticks have passed since the divider was started. *)
Record voice (fuel : nat) (sqs : list (option sequence)) (d : Z) (j : nat) (note : Z) (t : track) : Prop := {
  vo_ok : track_ok fuel t;
  vo_slots : slots fuel sqs t;
  vo_effect : any_effect t = false;
  vo_arp : has t FArp = false;
  vo_ctx : un_ctx (tr_unit t) <> None;
  vo_told : told t;
  vo_playing : playing sqs (tr_istate t);
  vo_div : tr_instrDiv t = mk_dstate d ((- Z.of_nat j) mod d);
  vo_note : BKSlideStateGetValue (tr_note t) = Ok note;
  vo_empty : defaulted sqs (is_states (tr_istate t))
}.

Lemma voice_length fuel sqs d j note t : voice fuel sqs d j note t -> length sqs = 4%nat /\ length (is_states (tr_istate t)) = 4%nat.
Proof.
  intros V. destruct (track_slots fuel sqs t (vo_ok _ _ _ _ _ _ V) (vo_slots _ _ _ _ _ _ V)) as (F & _). destruct (Forall3_length _ _ _ _ F) as (L1 & L2).
  change (length slot_ranges) with 4%nat in L1, L2. auto.
Qed.

(** ** What is heard of it *)

Lemma voice_heard fuel sqs d j note t0 t : voice fuel sqs d j note t -> settings t0 t -> heard t ->
  let x := fun i => match nth_error (is_states (tr_istate t)) i with Some st => st_value st | None => 0 end in
  unit_plays t (note + x 2%nat + tr_pitch t0) /\
  (exists l, volumes t l /\ 0 <= level l <= tr_master t0 /\ BKSlideStateGetValue (tr_volume t0) = Ok (lv_volume l) /\ BKSlideStateGetValue (tr_panning t0) = Ok (lv_panning l) /\
    lv_ignore l = has t0 FIgnore /\ lv_master l = tr_master t0 /\ lv_stereo l = has t0 FPan /\ lv_instr l = Some (x 0%nat, x 1%nat) /\ lv_tremolo l = None) /\
  BKTrackGetAttr t BK_DUTY_CYCLE = Ok (0, Some (Z.max 1 (Z.min 15 (if x 3%nat =? 0 then tr_duty t0 else x 3%nat)))).
Proof.
  intros V (S1 & S2 & S3 & S4 & S5 & S6 & S7) ((l & ML & VL & BL) & (n & EN & UP) & (dv & ED & UD)) x. destruct (voice_length _ _ _ _ _ _ V) as (_ & L3).
  destruct (track_slots fuel sqs t (vo_ok _ _ _ _ _ _ V) (vo_slots _ _ _ _ _ _ V)) as (_ & HI).
  assert (XV : forall j, 0 <= j < 4 -> slot_value t j = Ok (x (Z.to_nat j))).
  { intros i HJ. unfold x. destruct (nth_error (is_states (tr_istate t)) (Z.to_nat i)) as [st|] eqn:ET; [apply slot_value_nth; [lia|exact ET]|]. apply nth_error_None in ET. lia. }
  pose proof (XV 0 ltac:(lia)) as XV0. pose proof (XV 1 ltac:(lia)) as XV1. pose proof (XV 2 ltac:(lia)) as XV2. pose proof (XV 3 ltac:(lia)) as XV3.
  change (Z.to_nat 0) with 0%nat in XV0. change (Z.to_nat 1) with 1%nat in XV1. change (Z.to_nat 2) with 2%nat in XV2. change (Z.to_nat 3) with 3%nat in XV3.
  destruct (effect_on t (vo_effect _ _ _ _ _ _ V)) as (_ & _ & _ & EF4 & EF5). pose proof (vo_arp _ _ _ _ _ _ V) as HA. pose proof (vo_note _ _ _ _ _ _ V) as G2.
  clearbody x. split.
  { assert (n = note + x 2%nat + tr_pitch t0) as <-; [|exact UP]. unfold track_note in EN. rewrite G2 in EN. cbn [bind] in EN. rewrite HA in EN. cbn [bind] in EN. rewrite EF5 in EN. cbn [bind] in EN.
    rewrite HI in EN. unfold BK_SEQUENCE_PITCH in EN. rewrite XV2 in EN. cbn [bind] in EN. apply bind_inv in EN. destruct EN as (n1 & EN1 & EN). apply chk_val in EN1. apply chk_val in EN. lia. }
  split.
  { exists l. destruct ML as (ML1 & ML2 & ML3 & ML4 & ML5 & ML6 & ML7). split; [exact VL|]. split; [rewrite <- S3; exact BL|].
    split; [rewrite <- S1; exact ML1|]. split; [rewrite <- S2; exact ML2|]. split; [congruence|]. split; [congruence|]. split; [congruence|]. split.
    - destruct (lv_instr l) as [[a b]|]; [|congruence]. destruct ML6 as (_ & Z1 & Z2). unfold BK_SEQUENCE_VOLUME in Z1. unfold BK_SEQUENCE_PANNING in Z2. congruence.
    - destruct (lv_tremolo l); [|reflexivity]. destruct ML7 as (Z1 & _). congruence. }
  rewrite UD. do 3 f_equal. f_equal. f_equal. unfold duty_value in ED. rewrite HI in ED. unfold BK_SEQUENCE_DUTY_CYCLE in ED. rewrite XV3 in ED. cbn [bind] in ED.
  destruct (x 3%nat =? 0); cbn [negb] in ED; congruence.
Qed.

(** ** It begins *)

Lemma voice_begin fuel t id sqs v : track_ok fuel t -> sequences_ok fuel sqs -> un_ctx (tr_unit t) <> None ->
  let i := Some (id, BKInstrumentUpdateNumSequences sqs) in let d := ds_divider (tr_instrDiv t) in
  same_instr i (tr_instr t) = false -> tr_curNote t = -1 -> any_effect t = false -> has t FArp = false -> sl_steps (tr_note t) = 0 -> sl_roundBias (tr_note t) = 0 ->
  0 <= v ->
  exists t1 t2 sts, BKTrackSetInstrument fuel t i = Ok t1 /\ BKTrackSetNote fuel t1 v = Ok t2 /\ voice fuel sqs d 0 (Z.min v MAX_NOTE) t2 /\ settings t t2 /\ 1 <= d < 2147483648 /\
    un_mute (tr_unit t2) = 0 /\ is_phase (tr_istate t2) = 1 /\ is_states (tr_istate t2) = phased fuel sqs 1 sts /\ Forall2 (slot_ok fuel) sqs sts.
Proof.
  intros H HQ HC i d NS HN HE HA S0 B0 HV.
  destruct (instrument_set fuel t id sqs H HQ NS HN) as (t1 & E1 & H1 & P1 & C1 & N1 & ST1 & RB1 & FV & FN & FD & DF). fold i in E1.
  destruct (play_fields _ _ P1) as (R1 & D1 & W1 & Y1 & X1 & M1 & V1 & A1 & T1 & I1 & F1).
  assert (SL1 : slots fuel sqs t1) by (exists id; rewrite I1; reflexivity).
  destruct (note_attack fuel t1 v sqs H1 SL1 N1 HV ltac:(congruence) ltac:(congruence)) as (t2 & sts & E2 & H2 & P2 & C2 & MU2 & G2 & FN2 & FV2 & FD2 & PL2 & PH2 & S2 & F2 & K2).
  destruct (play_fields _ _ P2) as (R2 & D2 & W2 & Y2 & X2 & M2 & V2 & A2 & T2 & I2 & G1).
  cbn [tr_rate tr_waveform tr_duty tr_samplePitch tr_master tr_volume tr_panning tr_pitch tr_instrDiv tr_instr t_arpeggio t_instrDiv put t_flags t_instr] in R1, D1, W1, Y1, X1, M1, V1, A1, T1, I1, R2, D2, W2, Y2, X2, M2, V2, A2, T2, I2.
  assert (HD : 1 <= d < 2147483648) by (unfold d; destruct (tk_instrDiv _ _ H) as (X & _); lia).
  assert (G12 : forall y, y <> FVolume -> y <> FNote -> y <> FDuty -> y <> FInstr -> has t2 y = has t y).
  { intros y Y0 Y3 Y4 Y5. rewrite (G1 y Y0 Y3 Y4). change (has (t_arpeggio (t_instrDiv t1 (zero_counter (tr_instrDiv t1))) (mk_arp 0 (ar_delta (tr_arpeggio t1)) (ar_count (tr_arpeggio t1)) (ar_notes (tr_arpeggio t1)))) y) with (has t1 y).
    rewrite (F1 y Y0 Y3 Y4). destruct y; try reflexivity; congruence. }
  exists t1, t2, sts. split; [exact E1|]. split; [exact E2|]. split; [|split; [|split; [exact HD|split; [exact MU2|split; [exact PH2|split; [exact S2|exact F2]]]]]].
  - constructor; try assumption.
    + exists id. rewrite I2, I1. reflexivity.
    + unfold any_effect. rewrite !G12 by discriminate. exact HE.
    + rewrite G12 by discriminate. exact HA.
    + congruence.
    + split; [left; exact (FV2 FV)|]. split; [left; exact FN2|left; exact (FD2 FD)].
    + rewrite D2, D1. cbn [zero_counter ds_divider]. fold d. change (- Z.of_nat 0) with 0. rewrite Z.mod_0_l by lia. reflexivity.
    + rewrite S2. assert (K : empties sqs sts (phased fuel sqs 1 sts)); [|exact (defaulted_empties _ _ _ K (defaulted_empties _ _ _ K2 DF))].
      intros m EM. destruct (nth_error sts m) as [st|] eqn:ET; [rewrite (phased_slot fuel 1 sqs sts m None st EM ET); reflexivity|].
      apply nth_error_None in ET. apply nth_error_None. unfold phased. rewrite map_length, combine_length. lia.
  - unfold settings. rewrite !G12 by discriminate. repeat split; congruence.
Qed.

(** ** It goes on *)

Lemma voice_ticks fuel sqs d j note k t : 1 <= d < 2147483648 -> voice fuel sqs d j note t -> let sts := is_states (tr_istate t) in
  (forall i, (i < k)%nat -> (0 <? unfinished sqs (played fuel sqs (beats d j i) sts)) && (unfinished sqs (played fuel sqs (beats d j (S i)) sts) =? 0) = false) ->
  exists t', ticks fuel k t = Ok t' /\ voice fuel sqs d (j + k) note t' /\ settings t t' /\ un_mute (tr_unit t') = un_mute (tr_unit t) /\ is_phase (tr_istate t') = is_phase (tr_istate t) /\
    is_states (tr_istate t') = played fuel sqs (beats d j k) sts /\ ((1 <= k)%nat -> heard t').
Proof.
  intros HD V sts HU. pose proof V as [H SL HE HA HC T PL DV NT EM].
  destruct (instr_ticks fuel sqs d k HD j t H SL HE HA HC T PL DV HU) as (s' & t' & E' & H' & M' & C' & MU' & HE' & T' & S' & P' & PL').
  assert (IS : tr_istate t' = s' /\ tr_instrDiv t' = mk_dstate d ((- Z.of_nat (j + k)) mod d) /\ tr_note t' = tr_note t /\ tr_instr t' = tr_instr t /\ tr_duty t' = tr_duty t /\ tr_pitch t' = tr_pitch t /\ tr_volume t' = tr_volume t /\ tr_panning t' = tr_panning t /\ tr_master t' = tr_master t).
  { destruct M' as (u & a & b & c & ->). repeat (split; [reflexivity|]). reflexivity. }
  destruct IS as (IS & DV' & NT' & IN' & D1 & D2 & D3 & D4 & D5).
  assert (F3 : forall y, y <> FVolume -> y <> FNote -> y <> FDuty -> has t' y = has t y) by (intros y Y0 Y3 Y4; rewrite (marks_has _ _ _ M') by assumption; reflexivity).
  exists t'. rewrite IS. split; [exact E'|]. split; [|split; [|auto 6]].
  - constructor; try assumption.
    + destruct SL as (id & EI). exists id. congruence.
    + unfold any_effect. rewrite !F3 by discriminate. exact HE.
    + rewrite F3 by discriminate. exact HA.
    + rewrite C'. exact HC.
    + rewrite IS. exact PL'.
    + rewrite NT'. exact NT.
    + rewrite IS, S'. intros m dv EM1 EM2. destruct (EM m dv EM1 EM2) as (st & ST & SV). exists st. split; [|exact SV].
      rewrite (played_slot fuel sqs m None _ _ st EM1 ST). rewrite run_none. reflexivity.
  - unfold settings. rewrite !F3 by discriminate. auto 10.
Qed.

(** ** It is released *)

Lemma release_keeps u v u' r : BKUnitSetAttr u BK_FLAG_RELEASE v = Ok (u', r) -> un_volume u' = un_volume u /\ un_duty u' = un_duty u.
Proof.
  intros E. unfold BKUnitSetAttr in E. cbv zeta in E.
  change (BK_FLAG_RELEASE =? BK_DUTY_CYCLE) with false in E. change (BK_FLAG_RELEASE =? BK_WAVEFORM) with false in E.
  change (BK_FLAG_RELEASE =? BK_PHASE) with false in E. change (BK_FLAG_RELEASE =? BK_PHASE_WRAP) with false in E.
  change (BK_FLAG_RELEASE =? BK_PERIOD) with false in E. change (BK_FLAG_RELEASE =? BK_VOLUME) with false in E.
  change ((BK_VOLUME_0 <=? BK_FLAG_RELEASE) && (BK_FLAG_RELEASE <=? BK_VOLUME_7)) with false in E.
  change (BK_FLAG_RELEASE =? BK_MUTE) with false in E. change (BK_FLAG_RELEASE =? BK_SAMPLE_REPEAT) with false in E.
  change (BK_FLAG_RELEASE =? BK_SAMPLE_PERIOD) with false in E. change (BK_FLAG_RELEASE =? BK_SAMPLE_IMMED_RELEASE) with false in E.
  change (BK_FLAG_RELEASE =? BK_FLAG_RELEASE) with true in E. cbv iota in E.
  assert (K : forall x, Ok (x, 0) = Ok (u', r) -> un_volume x = un_volume u -> un_duty x = un_duty u -> un_volume u' = un_volume u /\ un_duty u' = un_duty u).
  { intros x Ex Hx Mx. assert (u' = x) as -> by congruence. auto. }
  destruct (un_sustain u) eqn:S0; [|apply (K _ E); reflexivity].
  destruct (_ && _); [|apply (K _ E); reflexivity].
  destruct (_ >? _); [apply (K _ E); reflexivity|].
  destruct (chk32 _); cbn [bind] in E; [|discriminate]. apply (K _ E); reflexivity.
Qed.

Lemma voice_release fuel sqs d j note t : voice fuel sqs d j note t -> is_phase (tr_istate t) = 1 -> release_ok (tr_unit t) ->
  let sts' := phased fuel sqs 2 (is_states (tr_istate t)) in
  exists t', BKTrackSetNote fuel t BK_NOTE_RELEASE = Ok t' /\ tr_curNote t' = -1 /\
    if unfinished sqs sts' =? 0 then silent t'
    else voice fuel sqs d j note t' /\ settings t t' /\ un_mute (tr_unit t') = un_mute (tr_unit t) /\ is_phase (tr_istate t') = 2 /\ is_states (tr_istate t') = sts'.
Proof.
  intros V P1 RO sts'. pose proof V as [H SL HE HA HC T PL DV NT EM].
  destruct (set_note_ok fuel t BK_NOTE_RELEASE H ltac:(intros _; exact RO)) as (t' & E & H'). exists t'. split; [exact E|].
  destruct (track_slots fuel sqs t H SL) as (F & HI). pose proof SL as (id & EI).
  pose proof (sok_slots _ _ _ _ F) as SO.
  destruct (phase_set fuel sqs (tr_istate t) 2 SO ltac:(lia) ltac:(rewrite P1; lia)) as (EP & FP). cbv zeta in EP. cbn [Z.eqb Pos.eqb orb] in EP. rewrite andb_true_r in EP.
  change (map (phase_slot fuel 2) (combine sqs (is_states (tr_istate t)))) with sts' in EP, FP.
  pose proof E as E0. unfold BKTrackSetNote in E0. change (BK_NOTE_RELEASE >=? 0) with false in E0. change (BK_NOTE_RELEASE =? BK_NOTE_RELEASE) with true in E0. cbv iota zeta in E0.
  change (has (t_curNote t (-1)) FInstr) with (has t FInstr) in E0. rewrite HI in E0.
  apply bind_inv in E0. destruct E0 as (t1 & E1 & E0). assert (ET : t' = put t1 FNote true) by congruence.
  apply bind_inv in E1. destruct E1 as (t2 & E2 & E1). apply unit_attr_inv in E1. destruct E1 as (u & r & EU & ET1).
  unfold BKTrackInstrumentRelease in E2. apply bind_inv in E2. destruct E2 as (t3 & E3 & E2). assert (ET2 : t2 = BKTrackInstrumentUpdateFlags t3 false) by congruence. clear E2.
  unfold track_set_phase, set_phase_plain in E3. change (tr_instr (t_curNote t (-1))) with (tr_instr t) in E3. change (tr_istate (t_curNote t (-1))) with (tr_istate t) in E3.
  rewrite EI in E3. unfold BK_SEQUENCE_PHASE_RELEASE in E3. rewrite EP in E3. cbn [bind is_muted] in E3. rewrite P1 in E3. cbn [Z.eqb negb] in E3.
  pose proof (release_held _ _ _ _ EU) as ((_ & _ & _ & _ & _ & CU) & MUU). pose proof (release_keeps _ _ _ _ EU) as (VU & DU).
  assert (UT2 : tr_unit t2 = tr_unit t3) by (rewrite ET2; apply marks_unit_same).
  destruct (Z.eqb_spec (unfinished sqs sts') 0) as [UZ|UZ]; cbn [andb] in E3.
  - replace (is_muted (tr_istate t) + 1 =? is_muted (tr_istate t)) with false in E3 by lia. cbn [negb] in E3.
    assert (C3 : tr_curNote t3 = -1).
    { unfold mute_event, set_note_mute in E3. cbv zeta in E3. apply bind_inv in E3. destruct E3 as (ta & Ea & E3). apply bind_inv in E3. destruct E3 as (tb & Eb & E3). apply bind_inv in E3. destruct E3 as (tc & Ec & E3).
      assert (t3 = put tc FNote true) as -> by congruence. apply unit_attr_inv in Ec. destruct Ec as (u1 & r1 & _ & ->). apply unit_attr_inv in Eb. destruct Eb as (u2 & r2 & _ & ->).
      change (tr_curNote ta = -1). clear - Ea. destruct (has _ FInstr); [|match type of Ea with Ok ?x = _ => assert (ta = x) as -> by congruence end; reflexivity].
      apply bind_inv in Ea. destruct Ea as (td & Ed & Ea). assert (ta = BKTrackInstrumentUpdateFlags td false) as -> by congruence. assert (EC : tr_curNote (BKTrackInstrumentUpdateFlags td false) = tr_curNote td) by (destruct (flags_marks td false) as (? & ? & ? & ? & ->); reflexivity). rewrite EC. clear EC.
      unfold set_phase_inner, set_phase_plain in Ed. destruct (tr_instr _) as [[? ?]|]; [|cbn [bind] in Ed; match type of Ed with Ok ?x = _ => assert (td = x) as -> by congruence end; reflexivity].
      apply bind_inv in Ed. destruct Ed as ((te & b) & Ee & Ed). apply bind_inv in Ee. destruct Ee as (s & _ & Ee). destruct b; [discriminate|]. assert (td = te) as -> by congruence.
      match type of Ee with Ok (?x, _) = _ => assert (te = x) as -> by congruence end. reflexivity. }
    split; [rewrite ET, ET1, ET2; destruct (flags_marks t3 false) as (? & ? & ? & ? & ->); exact C3|]. unfold mute_event in E3. apply mute_silent in E3. unfold silent in *. rewrite ET, ET1. cbn [tr_unit put t_flags t_unit]. rewrite MUU, UT2. exact E3.
  - replace (is_muted (tr_istate t) + 0 =? is_muted (tr_istate t)) with true in E3 by lia. cbn [negb] in E3.
    match type of E3 with Ok ?x = _ => assert (ET3 : t3 = x) by congruence end. clear E3.
    set (s2 := mk_istate 2 (unfinished sqs sts') sts' (is_muted (tr_istate t) + 0)) in *.
    destruct (flags_has t3) as (FV & FN & FD). rewrite <- ET2 in FV, FN, FD.
    pose proof (flags_marks t3 false) as M3. rewrite <- ET2 in M3.
    assert (IS : tr_istate t' = s2 /\ tr_instrDiv t' = tr_instrDiv t /\ tr_note t' = tr_note t /\ tr_instr t' = tr_instr t /\ tr_duty t' = tr_duty t /\ tr_pitch t' = tr_pitch t /\ tr_volume t' = tr_volume t /\ tr_panning t' = tr_panning t /\ tr_master t' = tr_master t /\
      tr_unit t' = u /\ tr_curNote t' = -1).
    { rewrite ET, ET1. clear - M3 ET3. destruct M3 as (u1 & a & b & c & ->). rewrite ET3. repeat (split; [reflexivity|]). reflexivity. }
    destruct IS as (IS & DV' & NT' & IN' & D1 & D2 & D3 & D4 & D5 & UU & CN). split; [exact CN|].
    assert (UT : tr_unit t2 = tr_unit t) by (rewrite UT2, ET3; reflexivity). rewrite UT in CU, MUU, VU, DU.
    assert (G : forall y, y <> FVolume -> y <> FNote -> y <> FDuty -> has t' y = has t y).
    { intros y Y0 Y3 Y4. rewrite ET, ET1. clear - M3 ET3 Y0 Y3 Y4. destruct M3 as (u1 & a & b & c & ->). rewrite ET3. destruct y; try reflexivity; congruence. }
    assert (GV : has t' FVolume = has t2 FVolume /\ has t' FDuty = has t2 FDuty /\ has t' FNote = true) by (rewrite ET, ET1; auto).
    destruct GV as (GV & GD & GN).
    assert (EN : empties sqs (is_states (tr_istate t)) sts').
    { intros m EM1. unfold sts'. destruct (nth_error (is_states (tr_istate t)) m) as [st|] eqn:ES; [rewrite (phased_slot fuel 2 sqs _ m None st EM1 ES); reflexivity|].
      apply nth_error_None in ES. apply nth_error_None. unfold phased. rewrite map_length, combine_length. lia. }
    destruct (Forall3_length _ _ _ _ F) as (L1 & L2). change (length slot_ranges) with 4%nat in L1, L2.
    assert (SV : forall i, 0 <= i < 4 -> some_seq t3 i = false -> slot_value t' i = slot_value t i).
    { intros i Hi ES. unfold slot_value. rewrite IS. cbn [is_states s2]. rewrite (aget_same sts' (is_states (tr_istate t)) i); [reflexivity|lia| |].
      - unfold sts', phased. rewrite map_length, combine_length. lia.
      - apply EN. unfold some_seq, slot_sequence in ES. rewrite ET3 in ES. change (tr_instr (t_istate (t_curNote t (-1)) s2)) with (tr_instr t) in ES. rewrite EI in ES. cbn [in_sequences BKInstrumentUpdateNumSequences] in ES.
        destruct (nth_error sqs (Z.to_nat i)) as [q|] eqn:EQ; [|apply nth_error_None in EQ; lia]. rewrite (nth_error_nth _ _ None EQ) in ES. destruct q; [discriminate|reflexivity]. }
    assert (R4 : forall i, (0 <=? i) && (i <? 4) = true -> 0 <= i < 4) by (intros i Ei; apply andb_true_iff in Ei; lia).
    assert (HT3 : has t3 FVolume = has t FVolume /\ has t3 FDuty = has t FDuty) by (rewrite ET3; auto). destruct HT3 as (HT3 & HT4).
    split; [|split; [unfold settings; rewrite !G by discriminate; auto 10|split; [rewrite UU; exact MUU|rewrite IS; auto]]].
    constructor; try assumption.
    + exists id. congruence.
    + unfold any_effect. rewrite !G by discriminate. exact HE.
    + rewrite G by discriminate. exact HA.
    + rewrite UU, CU. exact HC.
    + destruct T as (TV & TN & TD). split; [|split; [left; exact GN|]].
      * rewrite GV, FV, HT3. destruct (has t FVolume); [left; reflexivity|]. destruct TV as [TV|(l & ML & VL & BL)]; [discriminate|]. cbn [orb].
        destruct (some_seq t3 BK_SEQUENCE_VOLUME) eqn:S0; [left; reflexivity|]. destruct (some_seq t3 BK_SEQUENCE_PANNING) eqn:S1; [left; reflexivity|]. right. exists l. split; [|split].
        -- destruct ML as (ML1 & ML2 & ML3 & ML4 & ML5 & ML6 & ML7). unfold measures.
           rewrite (SV BK_SEQUENCE_VOLUME (R4 BK_SEQUENCE_VOLUME eq_refl) S0), (SV BK_SEQUENCE_PANNING (R4 BK_SEQUENCE_PANNING eq_refl) S1).
           rewrite D3, D4, D5, !G by discriminate. destruct (effect_on t HE) as (_ & _ & _ & EF4 & _).
           repeat (split; [assumption|]). destruct (lv_tremolo l) as [x|]; [destruct ML7 as (Z1 & _); congruence|exact ML7].
        -- intros k HK. rewrite <- (VL k HK). destruct (tk_unit _ _ H) as ((W & _) & _).
           rewrite !volume_attr by (first [rewrite ?UU, ?VU; destruct (lv_stereo l); lia|rewrite ?UU, ?VU, (proj1 (wf_volume _ W)); destruct (lv_stereo l); lia]). rewrite UU, VU. reflexivity.
        -- rewrite D5. exact BL.
      * rewrite GD, FD, HT4. destruct (has t FDuty); [left; reflexivity|]. destruct TD as [TD|(x & Ex & Px)]; [discriminate|]. cbn [orb].
        destruct (some_seq t3 BK_SEQUENCE_DUTY_CYCLE) eqn:S0; [left; reflexivity|]. right. exists x. split.
        -- unfold duty_value in *. rewrite G by discriminate. rewrite D1, (SV BK_SEQUENCE_DUTY_CYCLE (R4 BK_SEQUENCE_DUTY_CYCLE eq_refl) S0). exact Ex.
        -- rewrite duty_attr, UU, DU. rewrite duty_attr in Px. exact Px.
    + rewrite IS. split; [right; reflexivity|reflexivity].
    + rewrite DV'. exact DV.
    + rewrite NT'. exact NT.
    + rewrite IS. exact (defaulted_empties _ _ _ EN EM).
Qed.

(** ** It ends *)

Lemma loop_ends fuel id instr level n : forall i t s' t', 0 <= i -> tr_instr t = Some (id, instr) -> tick_loop fuel n i instr (tr_istate t) level = Ok s' ->
  track_tick_loop fuel n i t level = Ok t' -> is_muted (tr_istate t) < is_muted s' -> silent t'.
Proof.
  induction n as [|n IH]; intros i t s' t' Hi EI E ET M; cbn [tick_loop track_tick_loop] in *; [assert (s' = tr_istate t) as -> by congruence; lia|].
  cbv zeta in ET. apply bind_inv in E. destruct E as (sq & Eq & E).
  assert (ES : slot_sequence t i = sq).
  { unfold slot_sequence. rewrite EI. unfold aget in Eq. destruct (_ && _) eqn:B; [|discriminate]. destruct (nth_error (in_sequences instr) (Z.to_nat i)) eqn:N; [|discriminate].
    rewrite (nth_error_nth _ _ None N). congruence. }
  rewrite ES in ET. apply bind_inv in E. destruct E as (st & E0 & E). rewrite E0 in ET. cbn [bind] in ET. apply bind_inv in E. destruct E as ((st1 & r) & E2 & E). rewrite E2 in ET. cbn [bind] in ET.
  apply bind_inv in E. destruct E as (sts & E3 & E). rewrite E3 in ET. cbn [bind] in ET. cbv zeta in E. apply bind_inv in E. destruct E as (s1 & E1 & E). cbn [is_muted is_phase is_numActive is_states] in E1.
  apply bind_inv in ET. destruct ET as (t1 & EA & ET).
  assert (K : silent t1 \/ t1 = t_istate t s1 /\ is_muted s1 = is_muted (tr_istate t)).
  { destruct (r =? _); [destruct (_ =? 0)|].
    - unfold track_set_phase, set_phase_plain in EA. cbn [tr_instr t_istate] in EA. rewrite EI in EA. cbn [tr_istate t_istate] in EA. rewrite E1 in EA. cbn [bind is_muted] in EA.
      destruct (Z.eqb_spec (is_muted s1) (is_muted (tr_istate t))) as [Q|Q]; cbn [negb] in EA.
      + right. split; [|exact Q]. match type of EA with Ok ?x = _ => assert (t1 = x) as -> by congruence end. reflexivity.
      + left. unfold mute_event in EA. exact (mute_silent _ _ _ EA).
    - right. match type of E1 with Ok ?x = _ => assert (s1 = x) as -> by congruence end. match type of EA with Ok ?x = _ => assert (t1 = x) as -> by congruence end. auto.
    - right. match type of E1 with Ok ?x = _ => assert (s1 = x) as -> by congruence end. match type of EA with Ok ?x = _ => assert (t1 = x) as -> by congruence end. auto. }
  destruct K as [K|(-> & Q)]; [exact (loop_silent _ _ _ _ _ _ ET K)|].
  apply (IH (i + 1) (t_istate t s1) s' t' ltac:(lia) EI E ET). change (is_muted s1 < is_muted s'). lia.
Qed.

Lemma voice_end fuel sqs d j note t : voice fuel sqs d j note t -> let lv := if fires (tr_instrDiv t) then 1 else 0 in let sts := is_states (tr_istate t) in
  (0 <? unfinished sqs sts) && (unfinished sqs (ticked fuel sqs lv sts) =? 0) = true ->
  exists t', BKTrackTick fuel t = Ok t' /\ track_ok fuel t' /\ silent t'.
Proof.
  intros V lv sts HU. pose proof V as [H SL HE HA HC T PL DV NT EM]. destruct (tick_ok fuel t H) as (t' & E & H'). exists t'. split; [exact E|]. split; [exact H'|].
  destruct (track_slots fuel sqs t H SL) as (F & HI). destruct SL as (id & EI).
  destruct (effect_on t HE) as (V1 & V2 & V3 & V4 & V5).
  assert (EF : BKTrackEffectUpdateFlags t = t) by (unfold BKTrackEffectUpdateFlags; rewrite V3; cbv zeta; rewrite V1, V2, V4, V5; reflexivity).
  unfold BKTrackTick in E. rewrite EF in E. cbv zeta in E. rewrite HA in E. cbn [bind] in E. rewrite HI in E.
  destruct (divtick_ok _ (tk_instrDiv _ _ H)) as (dd & b & ED & D & Eb & Ed). rewrite ED in E. cbn [bind] in E. change (b = fires (tr_instrDiv t)) in Eb. subst b. fold lv in E.
  assert (HL : 0 <= lv) by (unfold lv; destruct (fires _); lia). clearbody lv.
  pose proof (sok_slots _ _ _ _ F) as SO.
  destruct (tick_playing fuel sqs (tr_istate t) lv SO PL HL) as (s' & ES & SO' & Q). fold sts in Q. rewrite HU in Q. destruct Q as (Q1 & Q2 & Q3).
  apply bind_inv in E. destruct E as (t1 & E1 & E). unfold BKTrackInstrumentTick in E1. change (tr_instr (t_instrDiv t dd)) with (tr_instr t) in E1. rewrite EI in E1.
  apply bind_inv in E1. destruct E1 as (t2 & E2 & E1). assert (ET : t1 = BKTrackInstrumentUpdateFlags t2 false) by congruence.
  assert (S2 : silent t2) by (apply (loop_ends fuel id _ lv _ 0 (t_instrDiv t dd) s' t2 ltac:(lia) EI ES E2); change (is_muted (tr_istate t) < is_muted s'); lia).
  assert (S1 : silent t1) by (unfold silent; rewrite ET, marks_unit_same; exact S2).
  apply bind_inv in E. destruct E as (t3 & E3 & E). apply (update_silent _ _ E3) in S1. destruct (any_effect t3); [|assert (t' = t3) as -> by congruence; exact S1].
  apply bind_inv in E. destruct E as ((dx & b) & _ & E). destruct b.
  - apply effect_unit in E. unfold silent. rewrite E. exact S1.
  - assert (ET' : tr_unit t' = tr_unit t3) by (match type of E with Ok ?x = _ => assert (t' = x) as -> by congruence end; reflexivity). unfold silent. rewrite ET'. exact S1.
Qed.

Lemma ticks_silent fuel k : forall t, track_ok fuel t -> silent t -> exists t', ticks fuel k t = Ok t' /\ track_ok fuel t' /\ silent t'.
Proof.
  induction k as [|k IH]; intros t H S; cbn [ticks]; [exists t; auto|]. destruct (tick_ok fuel t H) as (t1 & E & H1). rewrite E. cbn [bind].
  apply IH; [exact H1|]. exact (tick_silent _ _ _ E S).
Qed.
