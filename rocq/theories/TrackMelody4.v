(** How an instrument is set, and how its notes are released again and end. *)
From Verif Require Import CInt CIntFacts DataModel UnitModel UnitSpec UnitProofs UnitProofs2 UnitProofs5 UnitInv UnitInv2 UnitInv3 UnitCount
  InterpModel InterpProofs SlideIn ToneModel PropertiesTone SequenceModel SequenceSpec SequenceProofs InstrumentProofs InstrBounds
  TrackModel TrackSpec TrackInv TrackProofs TrackProofs2 TrackProofs3 TrackProofs4 TrackProofs5 TrackProofs6 TrackVolume TrackPlay TrackTicks TrackNote TrackAttrs
  TrackInstr TrackInstr2 TrackInstr3 TrackInstr4 TrackInstr5 TrackMelody TrackMelody2 TrackMelody3.
Ltac Zify.zify_post_hook ::= idtac.
Local Notation ticked := SequenceSpec.ticked.
Local Notation played := SequenceSpec.played.

(** The instrument is set. *)
Lemma set_unit fuel t id sqs t1 : track_ok fuel t -> sequences_ok fuel sqs -> let i := Some (id, BKInstrumentUpdateNumSequences sqs) in
  same_instr i (tr_instr t) = false -> tr_curNote t = -1 -> BKTrackSetInstrument fuel t i = Ok t1 ->
  un_sustain (tr_unit t1) = un_sustain (tr_unit t) /\ (silent t -> silent t1).
Proof.
  intros H HQ i NS HC E. unfold BKTrackSetInstrument in E. rewrite NS in E. cbn [negb] in E. unfold i in E. cbv iota in E.
  destruct (set_instrument_on fuel t id sqs H HQ) as (s & ES & F & B). rewrite ES in E. cbn [bind] in E. cbv zeta in E.
  pose proof (ok_instr_on fuel t id sqs s H F B) as H1. set (t1' := put (t_istate _ s) FInstr true) in *.
  set (t2 := t_instrDiv t1' _) in E. assert (H2 : track_ok fuel t2) by (apply ok_instrDiv; [exact H1|]; apply zero_div; exact (tk_instrDiv _ _ H1)).
  destruct (init_values_ok fuel t2 H2) as (s3 & E3 & (H3 & G3)). rewrite E3 in E. cbn [bind] in E.
  change (tr_curNote (t_istate t2 s3)) with (tr_curNote t) in E. rewrite HC in E. cbn [Z.eqb Pos.eqb] in E.
  destruct (mute_phase_ok fuel _ H3) as (t4 & E4 & (H4 & (HD4 & P4))). rewrite E4 in E. cbn [bind] in E.
  match type of E with Ok ?x = _ => assert (t1 = x) as -> by congruence end. clear E. unfold silent. rewrite marks_unit_same. destruct HD4 as (HS & _). split; [exact HS|].
  intros S. unfold BKTrackInstrumentMute in E4. apply bind_inv in E4. destruct E4 as (ta & Ea & E4). assert (t4 = BKTrackInstrumentUpdateFlags ta false) as -> by congruence.
  rewrite marks_unit_same. exact (phase_silent _ _ _ _ Ea S).
Qed.
Lemma ready_set fuel t id sqs : track_ok fuel t -> sequences_ok fuel sqs -> un_ctx (tr_unit t) <> None ->
  let i := Some (id, BKInstrumentUpdateNumSequences sqs) in let d := ds_divider (tr_instrDiv t) in
  same_instr i (tr_instr t) = false -> tr_curNote t = -1 -> any_effect t = false -> has t FArp = false -> sl_steps (tr_note t) = 0 -> sl_roundBias (tr_note t) = 0 ->
  un_sustain (tr_unit t) = false -> silent t ->
  exists t1, BKTrackSetInstrument fuel t i = Ok t1 /\ ready fuel sqs d t1 /\ settings t t1 /\ silent t1 /\ tr_curNote t1 = -1.
Proof.
  intros H HQ HC i d NS HN HE HA S0 B0 SU SI.
  destruct (instrument_set fuel t id sqs H HQ NS HN) as (t1 & E1 & H1 & P1 & C1 & N1 & ST1 & RB1 & FV & FN & FD & DF). fold i in E1.
  exists t1. split; [exact E1|]. destruct (set_unit fuel t id sqs t1 H HQ NS HN E1) as (SU1 & SI1).
  destruct (play_fields _ _ P1) as (R1 & D1 & W1 & Y1 & X1 & M1 & V1 & A1 & T1 & I1 & F1).
  assert (G : forall y, y <> FVolume -> y <> FNote -> y <> FDuty -> y <> FInstr -> has t1 y = has t y).
  { intros y Y0 Y3 Y4 Y5. rewrite (F1 y Y0 Y3 Y4). destruct y; try reflexivity; congruence. }
  split; [|split; [|split; [exact (SI1 SI)|exact N1]]].
  - constructor.
    + exact H1.
    + exists id. rewrite I1. reflexivity.
    + unfold any_effect. rewrite !G by discriminate. exact HE.
    + rewrite G by discriminate. exact HA.
    + congruence.
    + split; [left; exact FV|]. split; [left; exact FN|left; exact FD].
    + rewrite D1. reflexivity.
    + split; congruence.
    + exact DF.
    + congruence.
  - unfold settings. rewrite !G by discriminate. repeat split; assumption.
Qed.

(** What is ready is a voice as soon as it plays. *)
Lemma ready_voice fuel sqs d j note t : ready fuel sqs d t -> playing sqs (tr_istate t) -> tr_instrDiv t = mk_dstate d ((- Z.of_nat j) mod d) -> BKSlideStateGetValue (tr_note t) = Ok note ->
  voice fuel sqs d j note t.
Proof. intros [H SL HE HA HC T DV SM EM SU] P D N. constructor; assumption. Qed.

(** A released note is released again: nothing happens. *)
Lemma ready_again fuel sqs d t : ready fuel sqs d t -> is_phase (tr_istate t) = 2 ->
  exists t', BKTrackSetNote fuel t BK_NOTE_RELEASE = Ok t' /\ ready fuel sqs d t' /\ settings t t' /\ tr_curNote t' = -1 /\ un_mute (tr_unit t') = un_mute (tr_unit t) /\
    tr_istate t' = tr_istate t /\ tr_instrDiv t' = tr_instrDiv t /\ tr_note t' = tr_note t.
Proof.
  intros RD PH. destruct (ready_release fuel sqs d t RD) as (t' & E & RD' & SE & CU & _). exists t'. split; [exact E|]. split; [exact RD'|]. split; [exact SE|]. split; [exact CU|].
  pose proof (rd_ok _ _ _ _ RD) as H. destruct (track_slots fuel sqs t H (rd_slots _ _ _ _ RD)) as (_ & HI). destruct (rd_slots _ _ _ _ RD) as (id & EI).
  unfold BKTrackSetNote in E. change (BK_NOTE_RELEASE >=? 0) with false in E. change (BK_NOTE_RELEASE =? BK_NOTE_RELEASE) with true in E. cbv iota zeta in E.
  set (t0 := t_curNote t (-1)) in *. change (has t0 FInstr) with (has t FInstr) in E. rewrite HI in E.
  apply bind_inv in E. destruct E as (t1 & E & E1). assert (ET : t' = put t1 FNote true) by congruence. clear E1. apply bind_inv in E. destruct E as (t2 & E2 & E1).
  apply unit_attr_inv in E1. destruct E1 as (u & r & EU & ET1). destruct (release_held _ _ _ _ EU) as (_ & MU).
  unfold BKTrackInstrumentRelease in E2. apply bind_inv in E2. destruct E2 as (t3 & E3 & E2). assert (ET2 : t2 = BKTrackInstrumentUpdateFlags t3 false) by congruence. clear E2.
  unfold track_set_phase, set_phase_plain in E3. change (tr_instr t0) with (tr_instr t) in E3. change (tr_istate t0) with (tr_istate t) in E3. rewrite EI in E3.
  unfold BKInstrumentStateSetPhase in E3. rewrite PH in E3. change ((2 =? BK_SEQUENCE_PHASE_RELEASE) && (BK_SEQUENCE_PHASE_RELEASE =? BK_SEQUENCE_PHASE_RELEASE)) with true in E3. cbv iota in E3. cbn [bind] in E3.
  rewrite Z.eqb_refl in E3. cbn [negb] in E3. match type of E3 with Ok ?x = _ => assert (ET3 : t3 = x) by congruence end. clear E3.
  assert (UT : tr_unit t2 = tr_unit t) by (rewrite ET2, marks_unit_same, ET3; reflexivity). rewrite ET, ET1.
  split; [change (un_mute u = un_mute (tr_unit t)); congruence|]. change (tr_istate t2 = tr_istate t /\ tr_instrDiv t2 = tr_instrDiv t /\ tr_note t2 = tr_note t).
  rewrite ET2. destruct (flags_marks t3 false) as (? & ? & ? & ? & ->). rewrite ET3. auto.
Qed.

(** The last sequence ends: there is no note any more. *)
Lemma ready_end fuel sqs d j note t : voice fuel sqs d j note t -> let lv := if fires (tr_instrDiv t) then 1 else 0 in let sts := is_states (tr_istate t) in
  (0 <? unfinished sqs sts) && (unfinished sqs (ticked fuel sqs lv sts) =? 0) = true ->
  exists t', BKTrackTick fuel t = Ok t' /\ silent t' /\ tr_curNote t' = -1.
Proof.
  intros V lv sts HU. destruct (voice_end fuel sqs d j note t V HU) as (t' & E & H' & S'). exists t'. split; [exact E|]. split; [exact S'|]. pose proof V as [H SL HE HA HC T PL DV NT EM].
  destruct (track_slots fuel sqs t H SL) as (F & HI). destruct SL as (id & EI).
  destruct (effect_on t HE) as (V1 & V2 & V3 & V4 & V5).
  assert (EF : BKTrackEffectUpdateFlags t = t) by (unfold BKTrackEffectUpdateFlags; rewrite V3; cbv zeta; rewrite V1, V2, V4, V5; reflexivity).
  unfold BKTrackTick in E. rewrite EF in E. cbv zeta in E. rewrite HA in E. cbn [bind] in E. rewrite HI in E.
  destruct (divtick_ok _ (tk_instrDiv _ _ H)) as (dd & b & ED & D & Eb & Ed). rewrite ED in E. cbn [bind] in E. change (b = fires (tr_instrDiv t)) in Eb. subst b. fold lv in E.
  assert (HL : 0 <= lv) by (unfold lv; destruct (fires _); lia). clearbody lv.
  pose proof (sok_slots _ _ _ _ F) as SO.
  destruct (tick_playing fuel sqs (tr_istate t) lv SO PL HL) as (s' & ES & SO' & Q). fold sts in Q. rewrite HU in Q. destruct Q as (Q1 & Q2 & Q3).
  apply bind_inv in E. destruct E as (t1 & E1 & E).
  assert (OKI : track_ok fuel (t_instrDiv t dd)) by (apply ok_instrDiv; assumption).
  destruct (instr_tick_ok fuel (t_instrDiv t dd) lv OKI HL HI) as (t1' & E1' & (H1 & _ & P1)). assert (t1' = t1) as -> by congruence. clear E1'.
  unfold BKTrackInstrumentTick in E1. change (tr_instr (t_instrDiv t dd)) with (tr_instr t) in E1. rewrite EI in E1.
  apply bind_inv in E1. destruct E1 as (t2 & E2 & E1). assert (ET : t1 = BKTrackInstrumentUpdateFlags t2 false) by congruence.
  assert (C2 : tr_curNote t2 = -1) by (apply (loop_cur fuel id sqs lv _ 0 (t_instrDiv t dd) s' t2 ltac:(lia) EI HI ES E2); change (is_muted (tr_istate t) < is_muted s'); lia).
  assert (C1 : tr_curNote t1 = -1) by (rewrite ET; destruct (flags_marks t2 false) as (? & ? & ? & ? & ->); exact C2).
  apply bind_inv in E. destruct E as (t3 & E3 & E). destruct (update_ok fuel t1 H1) as (t3' & E3' & _ & M3). assert (t3' = t3) as -> by congruence.
  assert (C3 : tr_curNote t3 = -1) by (destruct M3 as (? & ? & ? & ? & ->); exact C1).
  assert (HE3 : any_effect t3 = false).
  { unfold any_effect. rewrite !(marks_has _ _ _ M3) by discriminate. destruct (play_fields _ _ P1) as (_ & _ & _ & _ & _ & _ & _ & _ & _ & _ & F1). rewrite !F1 by discriminate. exact HE. }
  rewrite HE3 in E. assert (t' = t3) as -> by congruence. exact C3.
Qed.
