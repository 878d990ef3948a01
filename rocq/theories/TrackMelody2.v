(** Events on a track with an instrument which is ready for notes. *)
From Verif Require Import CInt CIntFacts DataModel UnitModel UnitSpec UnitProofs UnitProofs2 UnitProofs5 UnitInv UnitInv2 UnitInv3 UnitCount
  InterpModel InterpProofs SlideIn ToneModel PropertiesTone SequenceModel SequenceSpec SequenceProofs InstrumentProofs InstrBounds
  TrackModel TrackSpec TrackInv TrackProofs TrackProofs2 TrackProofs3 TrackProofs4 TrackProofs5 TrackProofs6 TrackVolume TrackPlay TrackTicks TrackNote TrackAttrs
  TrackInstr TrackInstr2 TrackInstr3 TrackInstr4 TrackInstr5 TrackMelody.
Ltac Zify.zify_post_hook ::= idtac.
Local Notation ticked := SequenceSpec.ticked.
Local Notation played := SequenceSpec.played.

(** ** Telling the unit keeps the flags of samples *)

Lemma attr_sustain_keeps u k v u' r : BKUnitSetAttr u k v = Ok (u', r) -> k = BK_PERIOD \/ k = BK_SAMPLE_PERIOD \/ k = BK_VOLUME \/ k = BK_VOLUME_0 \/ k = BK_VOLUME_0 + 1 \/ k = BK_DUTY_CYCLE -> un_sustain u' = un_sustain u.
Proof.
  intros E HK. destruct HK as [-> |[-> |[-> |[-> |[-> | ->]]]]].
  - change (BKUnitSetAttr u BK_PERIOD v) with (let* v := abs32 v in Ok (set_period u (BKMax v BK_MIN_PERIOD), 0)) in E. apply bind_inv in E. destruct E as (w & _ & E).
    match type of E with Ok (?x, _) = _ => assert (u' = x) as -> by congruence end. reflexivity.
  - change (BKUnitSetAttr u BK_SAMPLE_PERIOD v) with
      (let* v := abs32 v in
       let v := BKClamp v BK_MIN_SAMPLE_PERIOD BK_MAX_SAMPLE_PERIOD in
       Ok (set_sm u (s_period (un_sample u) (if sm_period (un_sample u) <? 0 then - v else v)), 0)) in E.
    apply bind_inv in E. destruct E as (w & _ & E). cbv zeta in E. match type of E with Ok (?x, _) = _ => assert (u' = x) as -> by congruence end. reflexivity.
  - rewrite set_all in E. match type of E with Ok (?x, _) = _ => assert (u' = x) as -> by congruence end. reflexivity.
  - rewrite set_first in E. apply bind_inv in E. destruct E as (l & _ & E). match type of E with Ok (?x, _) = _ => assert (u' = x) as -> by congruence end. reflexivity.
  - rewrite set_second in E. apply bind_inv in E. destruct E as (l & _ & E). match type of E with Ok (?x, _) = _ => assert (u' = x) as -> by congruence end. reflexivity.
  - unfold BKUnitSetAttr in E. cbv zeta in E. change (BK_DUTY_CYCLE =? BK_DUTY_CYCLE) with true in E. cbv iota in E.
    destruct (negb _); match type of E with Ok (?x, _) = _ => assert (u' = x) as -> by congruence end; [|reflexivity]; clear; destruct (_ && _); reflexivity.
Qed.
Lemma uattr_sustain t k v t' : unit_attr t k v = Ok t' -> k = BK_PERIOD \/ k = BK_SAMPLE_PERIOD \/ k = BK_VOLUME \/ k = BK_VOLUME_0 \/ k = BK_VOLUME_0 + 1 \/ k = BK_DUTY_CYCLE -> un_sustain (tr_unit t') = un_sustain (tr_unit t).
Proof. intros E HK. apply unit_attr_inv in E. destruct E as (u & r & E & ->). exact (attr_sustain_keeps _ _ _ _ _ E HK). Qed.
Lemma update_sustain t t' : BKTrackUpdateUnit t = Ok t' -> un_sustain (tr_unit t') = un_sustain (tr_unit t).
Proof.
  unfold BKTrackUpdateUnit. intros E. apply bind_inv in E. destruct E as (t1 & E1 & E). apply bind_inv in E. destruct E as (t2 & E2 & E).
  assert (M1 : un_sustain (tr_unit t1) = un_sustain (tr_unit t)).
  { destruct (has t FVolume); [|congruence]. apply bind_inv in E1. destruct E1 as (ta & Ea & E1). assert (t1 = put ta FVolume false) as -> by congruence. change (un_sustain (tr_unit ta) = un_sustain (tr_unit t)). clear - Ea.
    unfold BKTrackUpdateUnitVolume in Ea. apply bind_inv in Ea. destruct Ea as ((v & p) & _ & E). destruct (_ && _).
    - apply bind_inv in E. destruct E as (v0 & _ & E). apply bind_inv in E. destruct E as (v1 & _ & E). apply bind_inv in E. destruct E as (t1 & E1 & E).
      apply uattr_sustain in E; [|auto 7]. apply uattr_sustain in E1; [|auto 7]. congruence.
    - apply uattr_sustain in E; auto 7. }
  assert (M2 : un_sustain (tr_unit t2) = un_sustain (tr_unit t1)).
  { destruct (has t1 FNote); [|congruence]. apply bind_inv in E2. destruct E2 as (ta & Ea & E2). assert (t2 = put ta FNote false) as -> by congruence. change (un_sustain (tr_unit ta) = un_sustain (tr_unit t1)). clear - Ea.
    unfold BKTrackUpdateUnitNote in Ea. destruct (un_ctx _); [|congruence]. apply bind_inv in Ea. destruct Ea as (n & _ & E). destruct (negb _).
    - apply bind_inv in E. destruct E as (p & _ & E). destruct (_ =? 0); [discriminate|]. apply uattr_sustain in E; auto 7.
    - apply bind_inv in E. destruct E as (m & _ & E). apply bind_inv in E. destruct E as (p & _ & E). apply uattr_sustain in E; auto 7. }
  rewrite <- M1, <- M2. clear - E. destruct (has t2 FDuty); [|congruence].
  apply bind_inv in E. destruct E as (ta & Ea & E). assert (t' = put ta FDuty false) as -> by congruence. change (un_sustain (tr_unit ta) = un_sustain (tr_unit t2)). clear - Ea.
  unfold BKTrackUpdateUnitDutyCycle in Ea. apply bind_inv in Ea. destruct Ea as (d & _ & E). apply uattr_sustain in E; auto 7.
Qed.


(** ** The current note *)

Section Current.
Context (fuel : nat) (id : Z) (sqs : list (option sequence)).
Let instr := BKInstrumentUpdateNumSequences sqs.
Lemma note_mute_cur sp t t' : tr_instr t = Some (id, instr) -> (forall t1 t2, tr_instr t1 = Some (id, instr) -> sp t1 0 = Ok t2 -> keeps sqs t1 t2) ->
  set_note_mute sp t = Ok t' -> tr_curNote t' = -1.
Proof.
  intros EI HS. unfold set_note_mute. cbv zeta. intros E.
  set (t1 := t_note (t_curNote t (-1)) (BKSlideStateHalt (tr_note (t_curNote t (-1))) true)) in *.
  apply bind_inv in E. destruct E as (t2 & E2 & E). apply bind_inv in E. destruct E as (t3 & E3 & E). apply bind_inv in E. destruct E as (t4 & E4 & E).
  assert (t' = put t4 FNote true) as -> by congruence. apply unit_attr_inv in E3. destruct E3 as (u3 & r3 & _ & ->). apply unit_attr_inv in E4. destruct E4 as (u4 & r4 & _ & ->).
  change (tr_curNote t2 = -1). destruct (has t1 FInstr); [|assert (t2 = t1) as -> by congruence; reflexivity]. apply bind_inv in E2. destruct E2 as (ta & Ea & E2).
  assert (t2 = BKTrackInstrumentUpdateFlags ta false) as -> by congruence. assert (EC : tr_curNote (BKTrackInstrumentUpdateFlags ta false) = tr_curNote ta) by (destruct (flags_marks ta false) as (? & ? & ? & ? & ->); reflexivity).
  rewrite EC. destruct (HS t1 ta EI Ea) as (_ & _ & [K|K] & _); [exact K|exact K].
Qed.
Lemma phase_cur t p t' : tr_instr t = Some (id, instr) -> track_set_phase fuel t p = Ok t' -> tr_curNote t = -1 -> tr_curNote t' = -1.
Proof. intros EI E C. destruct (set_phase_keeps fuel id sqs t p t' EI E) as (_ & _ & [K|K] & _); congruence. Qed.
Lemma event_cur t t' : tr_instr t = Some (id, instr) -> mute_event fuel t = Ok t' -> tr_curNote t' = -1.
Proof.
  intros EI E. unfold mute_event in E. apply (note_mute_cur _ _ _ EI) in E; [exact E|]. intros ta tb Ea Eb. unfold set_phase_inner in Eb. apply bind_inv in Eb. destruct Eb as ((tc & b) & Ec & Eb). destruct b; [discriminate|].
  assert (tb = tc) as -> by congruence. exact (plain_keeps fuel id sqs _ _ _ _ Ea Ec).
Qed.
Lemma loop_keeps level n : forall i t t', 0 <= i -> tr_instr t = Some (id, instr) -> has t FInstr = true -> track_tick_loop fuel n i t level = Ok t' -> keeps sqs t t'.
Proof.
  intros i t t' Hi EI HI E. pose proof (proj1 (loop_stays fuel id sqs level n i t t' Hi EI HI E)) as (A & _ & B & _). unfold keeps. cut (sl_steps (tr_note t') = sl_steps (tr_note t) /\ sl_roundBias (tr_note t') = sl_roundBias (tr_note t) /\ (tr_curNote t' = tr_curNote t \/ tr_curNote t' = -1)); [tauto|].
  clear Hi HI A B. revert i t EI E. induction n as [|n IH]; intros i t EI E; cbn [track_tick_loop] in E; [assert (t' = t) as -> by congruence; auto|].
  cbv zeta in E. apply bind_inv in E. destruct E as (st & E0 & E). apply bind_inv in E. destruct E as ((st1 & r) & E1 & E). apply bind_inv in E. destruct E as (sts & E2 & E).
  apply bind_inv in E. destruct E as (t1 & E3 & E).
  assert (K : tr_instr t1 = tr_instr t /\ sl_steps (tr_note t1) = sl_steps (tr_note t) /\ sl_roundBias (tr_note t1) = sl_roundBias (tr_note t) /\ (tr_curNote t1 = tr_curNote t \/ tr_curNote t1 = -1)).
  { destruct (r =? _).
    - set (tm := t_istate t (mk_istate (is_phase (tr_istate t)) (is_numActive (tr_istate t) - 1) sts (is_muted (tr_istate t)))) in *.
      destruct (_ =? 0); [|assert (t1 = tm) as -> by congruence; auto]. destruct (set_phase_keeps fuel id sqs tm _ _ EI E3) as (K1 & K2 & K3 & K4 & _). auto.
    - match type of E3 with Ok ?x = _ => assert (t1 = x) as -> by congruence end. auto. }
  destruct K as (K0 & K1 & K2 & K3). destruct (IH (i + 1) t1 ltac:(congruence) E) as (J1 & J2 & J3). split; [congruence|]. split; [congruence|]. destruct J3 as [J3|J3]; [rewrite J3; exact K3|auto].
Qed.
Lemma loop_cur level n : forall i t s' t', 0 <= i -> tr_instr t = Some (id, instr) -> has t FInstr = true -> tick_loop fuel n i instr (tr_istate t) level = Ok s' ->
  track_tick_loop fuel n i t level = Ok t' -> is_muted (tr_istate t) < is_muted s' -> tr_curNote t' = -1.
Proof.
  induction n as [|n IH]; intros i t s' t' Hi EI HI E ET M; cbn [tick_loop track_tick_loop] in *; [assert (s' = tr_istate t) as -> by congruence; lia|].
  cbv zeta in ET. apply bind_inv in E. destruct E as (sq & Eq & E).
  assert (ES : slot_sequence t i = sq).
  { unfold slot_sequence. rewrite EI. unfold aget in Eq. destruct (_ && _) eqn:B; [|discriminate]. destruct (nth_error (in_sequences instr) (Z.to_nat i)) eqn:N; [|discriminate].
    rewrite (nth_error_nth _ _ None N). congruence. }
  rewrite ES in ET. apply bind_inv in E. destruct E as (st & E0 & E). rewrite E0 in ET. cbn [bind] in ET. apply bind_inv in E. destruct E as ((st1 & r) & E2 & E). rewrite E2 in ET. cbn [bind] in ET.
  apply bind_inv in E. destruct E as (sts & E3 & E). rewrite E3 in ET. cbn [bind] in ET. cbv zeta in E. apply bind_inv in E. destruct E as (s1 & E1 & E). cbn [is_muted is_phase is_numActive is_states] in E1.
  apply bind_inv in ET. destruct ET as (t1 & EA & ET).
  assert (K : (tr_curNote t1 = -1 /\ tr_instr t1 = tr_instr t /\ has t1 FInstr = true) \/ t1 = t_istate t s1 /\ is_muted s1 = is_muted (tr_istate t)).
  { destruct (r =? _); [destruct (_ =? 0)|].
    - pose proof (set_phase_keeps fuel id sqs (t_istate t (mk_istate (is_phase (tr_istate t)) (is_numActive (tr_istate t) - 1) sts (is_muted (tr_istate t)))) _ _ EI EA) as (_ & _ & _ & KI & _).
      pose proof (proj1 (set_phase_stays fuel id sqs (t_istate t (mk_istate (is_phase (tr_istate t)) (is_numActive (tr_istate t) - 1) sts (is_muted (tr_istate t)))) _ _ EI HI EA)) as (_ & _ & _ & KF).
      unfold track_set_phase, set_phase_plain in EA. cbn [tr_instr t_istate] in EA. rewrite EI in EA. cbn [tr_istate t_istate] in EA. rewrite E1 in EA. cbn [bind is_muted] in EA.
      destruct (Z.eqb_spec (is_muted s1) (is_muted (tr_istate t))) as [Q|Q]; cbn [negb] in EA.
      + right. split; [|exact Q]. match type of EA with Ok ?x = _ => assert (t1 = x) as -> by congruence end. reflexivity.
      + left. split; [apply (fun X => event_cur _ _ X EA); exact EI|]. split; [exact KI|]. apply KF. exact HI.
    - right. match type of E1 with Ok ?x = _ => assert (s1 = x) as -> by congruence end. match type of EA with Ok ?x = _ => assert (t1 = x) as -> by congruence end. auto.
    - right. match type of E1 with Ok ?x = _ => assert (s1 = x) as -> by congruence end. match type of EA with Ok ?x = _ => assert (t1 = x) as -> by congruence end. auto. }
  destruct K as [(K1 & K2 & K3)|(-> & Q)].
  - destruct (loop_keeps level n (i + 1) t1 t' ltac:(lia) ltac:(congruence) K3 ET) as (_ & _ & [K|K] & _); congruence.
  - apply (IH (i + 1) (t_istate t s1) s' t' ltac:(lia) EI HI E ET). change (is_muted s1 < is_muted s'). lia.
Qed.
End Current.

(** ** Tracks which are ready *)

Record ready (fuel : nat) (sqs : list (option sequence)) (d : Z) (t : track) : Prop := {
  rd_ok : track_ok fuel t;
  rd_slots : slots fuel sqs t;
  rd_effect : any_effect t = false;
  rd_arp : has t FArp = false;
  rd_ctx : un_ctx (tr_unit t) <> None;
  rd_told : told t;
  rd_div : ds_divider (tr_instrDiv t) = d;
  rd_smooth : sl_steps (tr_note t) = 0 /\ sl_roundBias (tr_note t) = 0;
  rd_empty : defaulted sqs (is_states (tr_istate t));
  rd_sustain : un_sustain (tr_unit t) = false
}.

Lemma play_settings t t' : play t t' -> settings t t'.
Proof. intros P. destruct (play_fields _ _ P) as (R1 & D1 & W1 & Y1 & X1 & M1 & V1 & A1 & T1 & I1 & F1). unfold settings. rewrite !F1 by discriminate. auto 10. Qed.

(** A ready track stays ready. *)
Lemma ready_stays fuel sqs d t t' : ready fuel sqs d t -> track_ok fuel t' -> play t t' -> stays sqs t t' -> keeps sqs t t' -> flagged t' ->
  (has t' FNote = true \/ tr_note t' = tr_note t /\ tr_unit t' = tr_unit t) -> ready fuel sqs d t'.
Proof.
  intros [H SL HE HA HC T DV (S0 & B0) EM SU] H' P ST (K1 & K2 & K3 & K4 & K5) FL HN.
  destruct (play_fields _ _ P) as (R1 & D1 & W1 & Y1 & X1 & M1 & V1 & A1 & T1 & I1 & F1). pose proof ST as (_ & (_ & _ & US & UC) & EE & _).
  assert (HE' : any_effect t' = false) by (unfold any_effect; rewrite !F1 by discriminate; exact HE).
  assert (HA' : has t' FArp = false) by (rewrite F1 by discriminate; exact HA).
  constructor; try assumption.
  - destruct SL as (id & EI). exists id. congruence.
  - congruence.
  - apply (told_stays fuel sqs t t' H H' SL ST (play_settings _ _ P) FL HE HE' HA HA'); [|exact T]. destruct HN as [HN|(N1 & N2)]; [left; exact HN|right; auto].
  - congruence.
  - split; congruence.
  - exact (defaulted_empties _ _ _ EE EM).
  - congruence.
Qed.

(** The note is muted. *)
Lemma ready_mute fuel sqs d t : ready fuel sqs d t ->
  exists t', BKTrackSetNote fuel t BK_NOTE_MUTE = Ok t' /\ ready fuel sqs d t' /\ settings t t' /\ silent t' /\ tr_curNote t' = -1.
Proof.
  intros RD. pose proof (rd_ok _ _ _ _ RD) as H. destruct (mute_note_ok fuel t H) as (t' & E & (H' & _ & P) & MU). exists t'. split; [exact E|].
  destruct (track_slots fuel sqs t H (rd_slots _ _ _ _ RD)) as (_ & HI). destruct (rd_slots _ _ _ _ RD) as (id & EI).
  destruct (note_mute_stays id sqs _ _ _ EI HI ltac:(intros t1 t2 E1 F1 E2; exact (proj1 (set_phase_stays fuel id sqs t1 0 t2 E1 F1 E2))) E) as (ST & FL & FN).
  pose proof (note_mute_keeps id sqs _ _ _ EI (fun t1 t2 E1 E2 => set_phase_keeps fuel id sqs t1 0 t2 E1 E2) E) as K.
  split; [exact (ready_stays _ _ _ _ _ RD H' P ST K FL (or_introl FN))|]. split; [exact (play_settings _ _ P)|]. split; [unfold silent; rewrite MU; discriminate|].
  exact (note_mute_cur id sqs _ _ _ EI (fun t1 t2 E1 E2 => set_phase_keeps fuel id sqs t1 0 t2 E1 E2) E).
Qed.

(** The note is released. *)
Lemma ready_release fuel sqs d t : ready fuel sqs d t ->
  exists t', BKTrackSetNote fuel t BK_NOTE_RELEASE = Ok t' /\ ready fuel sqs d t' /\ settings t t' /\ tr_curNote t' = -1 /\ (silent t -> silent t').
Proof.
  intros RD. pose proof (rd_ok _ _ _ _ RD) as H. assert (RO : release_ok (tr_unit t)) by (intros C; rewrite (rd_sustain _ _ _ _ RD) in C; discriminate).
  destruct (set_note_ok fuel t BK_NOTE_RELEASE H (fun _ => RO)) as (t' & E & H'). exists t'. split; [exact E|].
  destruct (track_slots fuel sqs t H (rd_slots _ _ _ _ RD)) as (_ & HI). destruct (rd_slots _ _ _ _ RD) as (id & EI).
  unfold BKTrackSetNote in E. change (BK_NOTE_RELEASE >=? 0) with false in E. change (BK_NOTE_RELEASE =? BK_NOTE_RELEASE) with true in E. cbv iota zeta in E.
  set (t0 := t_curNote t (-1)) in *. change (has t0 FInstr) with (has t FInstr) in E. rewrite HI in E.
  assert (H0 : track_ok fuel t0) by (apply ok_curNote; [exact H|unfold MAX_NOTE; lia]).
  destruct (release_phase_ok fuel t0 H0) as (t2 & E2 & (H2 & R2 & P2)). rewrite E2 in E. cbn [bind] in E.
  apply bind_inv in E. destruct E as (t1 & E1 & E). assert (ET : t' = put t1 FNote true) by congruence. clear E.
  pose proof (stays_attr sqs _ _ _ _ E1 ltac:(auto)) as K1. apply unit_attr_inv in E1. destruct E1 as (u & r & EU & ET1). destruct (release_held _ _ _ _ EU) as (_ & MU).
  unfold BKTrackInstrumentRelease in E2. apply bind_inv in E2. destruct E2 as (t3 & E3 & E2). assert (ET2 : t2 = BKTrackInstrumentUpdateFlags t3 false) by congruence. clear E2.
  destruct (set_phase_stays fuel id sqs t0 _ _ EI HI E3) as (K3 & _). pose proof (set_phase_keeps fuel id sqs t0 _ _ EI E3) as Q3.
  assert (KF : stays sqs t2 t') by (rewrite ET; eapply stays_trans; [exact K1|apply stays_put]).
  assert (PF : play t2 t') by (rewrite ET, ET1; apply play_put; [|auto]; apply play_unit, play_refl).
  assert (QF : keeps sqs t2 t') by (rewrite ET, ET1; apply keeps_marks; apply marks_put; [apply marks_unit, marks_refl|auto]).
  assert (P0 : play t t0) by (apply play_curNote, play_refl). pose proof (play_trans _ _ _ P0 (play_trans _ _ _ P2 PF)) as P.
  assert (K0 : stays sqs t t0) by (split; [reflexivity|]; split; [apply same_unit_refl|]; split; [apply empties_refl|auto]).
  assert (Q0 : keeps sqs t t0) by (unfold keeps; cbn; auto using empties_refl).
  assert (K2 : stays sqs t3 t2) by (rewrite ET2; apply stays_flags). assert (Q2 : keeps sqs t3 t2) by (rewrite ET2; apply keeps_marks, flags_marks).
  split.
  { apply (ready_stays fuel sqs d t t' RD H' P).
    - exact (stays_trans _ _ _ _ K0 (stays_trans _ _ _ _ K3 (stays_trans _ _ _ _ K2 KF))).
    - exact (keeps_trans _ _ _ _ Q0 (keeps_trans _ _ _ _ Q3 (keeps_trans _ _ _ _ Q2 QF))).
    - apply (stays_flagged _ _ _ KF). rewrite ET2. apply flags_flagged.
    - left. rewrite ET. reflexivity. }
  split; [exact (play_settings _ _ P)|]. split.
  - destruct (keeps_trans _ _ _ _ Q3 (keeps_trans _ _ _ _ Q2 QF)) as (_ & _ & [K|K] & _); [exact K|exact K].
  - intros SI. unfold silent. rewrite ET, ET1. change (un_mute u <> 0). rewrite MU, ET2, marks_unit_same. exact (phase_silent _ _ _ _ E3 SI).
Qed.

Lemma told_div fuel t d : track_ok fuel t -> told t -> told (t_instrDiv t d).
Proof.
  intros H (TV & TN & TD). split; [|split; [exact TN|exact TD]]. destruct TV as [TV|(l & ML & VL & BL)]; [left; exact TV|right]. exists l. split; [exact ML|]. split; [|exact BL].
  intros k HK. rewrite <- (VL k HK). destruct (tk_unit _ _ H) as ((W & _) & _).
  rewrite !volume_attr by (first [destruct (lv_stereo l); lia|cbn [tr_unit t_instrDiv]; rewrite (proj1 (wf_volume _ W)); destruct (lv_stereo l); lia]). reflexivity.
Qed.

(** A tick. *)
Lemma ready_tick fuel sqs d t : ready fuel sqs d t ->
  exists t', BKTrackTick fuel t = Ok t' /\ ready fuel sqs d t' /\ settings t t' /\ (tr_curNote t' = tr_curNote t \/ tr_curNote t' = -1) /\ heard t'.
Proof.
  intros RD. pose proof RD as [H SL HE HA HC T DV SM EM SU]. destruct (tick_ok fuel t H) as (t' & E & H'). exists t'. split; [exact E|].
  destruct (track_slots fuel sqs t H SL) as (F & HI). pose proof SL as (id & EI).
  destruct (effect_on t HE) as (V1 & V2 & V3 & V4 & V5).
  assert (EF : BKTrackEffectUpdateFlags t = t) by (unfold BKTrackEffectUpdateFlags; rewrite V3; cbv zeta; rewrite V1, V2, V4, V5; reflexivity).
  unfold BKTrackTick in E. rewrite EF in E. cbv zeta in E. rewrite HA in E. cbn [bind] in E. rewrite HI in E.
  destruct (divtick_ok _ (tk_instrDiv _ _ H)) as (dd & b & ED & D & Eb & Ed). rewrite ED in E. cbn [bind] in E. set (lv := if b then 1 else 0) in E.
  assert (HL : 0 <= lv) by (unfold lv; destruct b; lia). clearbody lv.
  set (t0 := t_instrDiv t dd) in *.
  assert (R0 : ready fuel sqs d t0).
  { constructor; [apply ok_instrDiv; assumption|exact SL|exact HE|exact HA|exact HC|exact (told_div fuel t dd H T)| |exact SM|exact EM|exact SU]. change (ds_divider dd = d). rewrite Ed. rewrite <- DV. reflexivity. }
  pose proof (rd_ok _ _ _ _ R0) as H0. apply bind_inv in E. destruct E as (t1 & E1 & E).
  destruct (instr_tick_ok fuel t0 lv H0 HL HI) as (t1' & E1' & (H1 & _ & P1)). assert (t1' = t1) as -> by congruence. clear E1'.
  unfold BKTrackInstrumentTick in E1. change (tr_instr t0) with (tr_instr t) in E1. rewrite EI in E1.
  apply bind_inv in E1. destruct E1 as (t2 & E2 & E1). assert (ET : t1 = BKTrackInstrumentUpdateFlags t2 false) by congruence. clear E1.
  destruct (loop_stays fuel id sqs lv _ 0 t0 t2 ltac:(lia) EI HI E2) as (K2 & N2). pose proof (loop_keeps fuel id sqs lv _ 0 t0 t2 ltac:(lia) EI HI E2) as Q2.
  assert (K1 : stays sqs t2 t1) by (rewrite ET; apply stays_flags). assert (Q1 : keeps sqs t2 t1) by (rewrite ET; apply keeps_marks, flags_marks).
  assert (R1 : ready fuel sqs d t1).
  { apply (ready_stays fuel sqs d t0 t1 R0 H1 P1 (stays_trans _ _ _ _ K2 K1) (keeps_trans _ _ _ _ Q2 Q1)); [rewrite ET; apply flags_flagged|].
    destruct N2 as [N2|(N2 & N3)]; [left; apply K1; exact N2|]. right. rewrite ET, marks_unit_same. split; [|exact N3]. destruct (flags_marks t2 false) as (? & ? & ? & ? & ->). exact N2. }
  apply bind_inv in E. destruct E as (t3 & E3 & E). pose proof R1 as [_ SL1 HE1 HA1 HC1 T1 DV1 SM1 EM1 SU1].
  destruct (update_heard fuel t1 H1 HC1 T1) as (t3' & E3' & H3 & M3 & C3 & MU3 & LO & TU & DU). assert (t3' = t3) as -> by congruence. clear E3'.
  assert (HE3 : any_effect t3 = false) by (unfold any_effect; rewrite !(marks_has _ _ _ M3) by discriminate; exact HE1). rewrite HE3 in E. assert (t' = t3) as -> by congruence. clear E.
  pose proof (keeps_trans _ _ _ _ Q2 (keeps_trans _ _ _ _ Q1 (keeps_marks sqs _ _ M3))) as (_ & _ & CU & _).
  split.
  { constructor; try assumption.
    - destruct SL1 as (i1 & EI1). exists i1. destruct M3 as (? & ? & ? & ? & ->). exact EI1.
    - rewrite (marks_has _ _ _ M3) by discriminate. exact HA1.
    - rewrite C3. exact HC1.
    - unfold told. auto.
    - destruct M3 as (? & ? & ? & ? & ->). exact DV1.
    - destruct M3 as (? & ? & ? & ? & ->). exact SM1.
    - destruct M3 as (? & ? & ? & ? & ->). exact EM1.
    - rewrite (update_sustain _ _ E3). exact SU1. }
  split; [|split; [exact CU|unfold heard; auto]].
  apply (settings_trans t t1); [exact (settings_trans _ _ _ (play_settings t t (play_refl t)) (play_settings _ _ P1))|apply play_settings, marks_play, M3].
Qed.
