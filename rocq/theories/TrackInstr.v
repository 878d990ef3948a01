(** The sequences of an instrument in a track. *)
From Verif Require Import CInt CIntFacts DataModel UnitModel UnitSpec UnitProofs UnitProofs2 UnitProofs5 UnitInv UnitInv2 UnitInv3 UnitCount
  InterpModel InterpProofs SlideIn ToneModel PropertiesTone SequenceModel SequenceSpec SequenceProofs InstrumentProofs InstrBounds
  TrackModel TrackSpec TrackInv TrackProofs TrackProofs2 TrackProofs3 TrackProofs4 TrackProofs5 TrackProofs6 TrackVolume TrackPlay TrackTicks TrackNote.
Ltac Zify.zify_post_hook ::= idtac.
Local Notation ticked := SequenceSpec.ticked.

(** ** Ticks of the instrument which mute nothing *)

Lemma phase_mutes fuel instr s p s' : BKInstrumentStateSetPhase fuel instr s p = Ok s' -> is_muted s <= is_muted s'.
Proof.
  unfold BKInstrumentStateSetPhase. destruct (_ && _); [intros E; assert (s' = s) as -> by congruence; lia|].
  intros E. apply bind_inv in E. destruct E as ((sts & a) & _ & E). cbv zeta in E. destruct (_ || _); [assert (is_muted s' = is_muted s) by (match type of E with Ok ?x = _ => assert (s' = x) as -> by congruence end; reflexivity); lia|].
  destruct (_ =? _); [destruct (negb _)|]; match type of E with Ok ?x = _ => assert (s' = x) as -> by congruence end; cbn [is_muted]; lia.
Qed.
Lemma loop_mutes fuel instr level n : forall i s s', tick_loop fuel n i instr s level = Ok s' -> is_muted s <= is_muted s'.
Proof.
  induction n as [|n IH]; intros i s s' E; cbn [tick_loop] in E; [assert (s' = s) as -> by congruence; lia|].
  apply bind_inv in E. destruct E as (sq & _ & E). apply bind_inv in E. destruct E as (st & _ & E). apply bind_inv in E. destruct E as ((st1 & r) & _ & E).
  apply bind_inv in E. destruct E as (sts & _ & E). cbv zeta in E. apply bind_inv in E. destruct E as (s1 & E1 & E). apply IH in E. cbn [is_muted is_phase is_numActive is_states] in E1.
  destruct (_ =? _); [destruct (_ =? 0)|].
  - apply phase_mutes in E1. cbn [is_muted] in E1. lia.
  - match type of E1 with Ok ?x = _ => assert (s1 = x) as -> by congruence end. exact E.
  - match type of E1 with Ok ?x = _ => assert (s1 = x) as -> by congruence end. exact E.
Qed.

(** The loop of the track is the one of the instrument. *)
Lemma loop_track fuel id instr level n : forall i t s', 0 <= i -> tr_instr t = Some (id, instr) -> tick_loop fuel n i instr (tr_istate t) level = Ok s' ->
  is_muted s' = is_muted (tr_istate t) -> track_tick_loop fuel n i t level = Ok (t_istate t s').
Proof.
  induction n as [|n IH]; intros i t s' Hi EI E M; cbn [tick_loop track_tick_loop] in *; [assert (s' = tr_istate t) as -> by congruence; rewrite istate_self; reflexivity|].
  cbv zeta. apply bind_inv in E. destruct E as (sq & Eq & E).
  assert (ES : slot_sequence t i = sq).
  { unfold slot_sequence. rewrite EI. unfold aget in Eq. destruct (_ && _) eqn:B; [|discriminate]. destruct (nth_error (in_sequences instr) (Z.to_nat i)) eqn:N; [|discriminate].
    rewrite (nth_error_nth _ _ None N). congruence. }
  rewrite ES. apply bind_inv in E. destruct E as (st & -> & E). cbn [bind]. apply bind_inv in E. destruct E as ((st1 & r) & -> & E). cbn [bind].
  apply bind_inv in E. destruct E as (sts & -> & E). cbn [bind]. cbv zeta in E. apply bind_inv in E. destruct E as (s1 & E1 & E). cbn [is_muted is_phase is_numActive is_states] in E1.
  pose proof (loop_mutes _ _ _ _ _ _ _ E) as L.
  assert (K : (if r =? BK_SEQUENCE_RETURN_FINISH then
         let t1 := t_istate t (mk_istate (is_phase (tr_istate t)) (is_numActive (tr_istate t) - 1) sts (is_muted (tr_istate t))) in
         if is_numActive (tr_istate t) - 1 =? 0 then track_set_phase fuel t1 BK_SEQUENCE_PHASE_MUTE else Ok t1
       else Ok (t_istate t (mk_istate (is_phase (tr_istate t)) (is_numActive (tr_istate t)) sts (is_muted (tr_istate t))))) = Ok (t_istate t s1) /\
    is_muted s1 = is_muted (tr_istate t)).
  { destruct (r =? _); [cbv zeta; destruct (_ =? 0)|].
    - unfold track_set_phase, set_phase_plain. cbn [tr_instr t_istate]. rewrite EI. cbn [tr_istate t_istate]. pose proof (phase_mutes _ _ _ _ _ E1) as L1. cbn [is_muted] in L1.
      rewrite E1. cbn [bind is_muted]. replace (is_muted s1) with (is_muted (tr_istate t)) by lia. rewrite Z.eqb_refl. cbn [negb]. split; reflexivity.
    - match type of E1 with Ok ?x = _ => assert (s1 = x) as -> by congruence end. split; reflexivity.
    - match type of E1 with Ok ?x = _ => assert (s1 = x) as -> by congruence end. split; reflexivity. }
  destruct K as (K & M1). cbv zeta in K. rewrite K. cbn [bind]. exact (IH (i + 1) (t_istate t s1) s' ltac:(lia) EI E ltac:(cbn [tr_istate t_istate]; lia)).
Qed.

Lemma sok_slots fuel rs sqs sts : Forall3 (sok fuel) rs sqs sts -> Forall2 (slot_ok fuel) sqs sts.
Proof.
  induction 1 as [|r sq st rs sqs sts K F IH]; constructor; [|exact IH]. destruct K as (_ & _ & K). unfold slot_ok. destruct sq as [q|]; [|exact I].
  destruct K as ((K1 & _) & K2). split; assumption.
Qed.

(** The slots of a track whose instrument has the sequences [sqs]. *)
Definition slots (fuel : nat) (sqs : list (option sequence)) (t : track) : Prop :=
  exists id, tr_instr t = Some (id, BKInstrumentUpdateNumSequences sqs).

Lemma track_slots fuel sqs t : track_ok fuel t -> slots fuel sqs t -> Forall3 (sok fuel) slot_ranges sqs (is_states (tr_istate t)) /\ has t FInstr = true.
Proof.
  intros H (id & E). pose proof (tk_flag _ _ H) as HF. rewrite E in HF. split; [|exact HF]. destruct (tk_instr _ _ H) as (_ & sqs' & F & EI). rewrite E in EI.
  assert (sqs' = sqs) as -> by (apply (f_equal in_sequences) in EI; cbn in EI; congruence). exact F.
Qed.

(** ** What the unit has been told *)

Definition loud (t : track) : Prop := exists l, measures t l /\ volumes t l /\ 0 <= level l <= tr_master t.
Definition duty_value (t : track) : res Z :=
  if has t FInstr then let* v := slot_value t BK_SEQUENCE_DUTY_CYCLE in Ok (if negb (v =? 0) then v else tr_duty t) else Ok (tr_duty t).
Definition dutied (t : track) : Prop := exists d, duty_value t = Ok d /\ BKTrackGetAttr t BK_DUTY_CYCLE = Ok (0, Some (Z.max 1 (Z.min 15 d))).

Lemma duty_attr t : BKTrackGetAttr t BK_DUTY_CYCLE = Ok (0, Some (s32 (un_duty (tr_unit t)))).
Proof. reflexivity. Qed.

Lemma duty_told t t' : BKTrackUpdateUnitDutyCycle t = Ok t' -> exists d, duty_value t = Ok d /\ un_duty (tr_unit t') = Z.max 1 (Z.min 15 d).
Proof.
  unfold BKTrackUpdateUnitDutyCycle. intros E. apply bind_inv in E. destruct E as (d & Ed & E). exists d. split; [exact Ed|].
  apply unit_attr_inv in E. destruct E as (u & r & E & ->). unfold BKUnitSetAttr in E. cbv zeta in E. change (BK_DUTY_CYCLE =? BK_DUTY_CYCLE) with true in E. cbv iota in E.
  rewrite clamp_minmax in E by discriminate. change BK_MIN_DUTY_CYCLE with 1 in E. change BK_MAX_DUTY_CYCLE with 15 in E.
  destruct (Z.eqb_spec (un_duty (tr_unit t)) (Z.max 1 (Z.min 15 d))) as [ED|ED]; cbn [negb] in E.
  - assert (u = tr_unit t) as -> by congruence. exact ED.
  - match type of E with Ok (?x, _) = _ => assert (u = x) as -> by congruence end. reflexivity.
Qed.

Lemma attr_duty_keeps u k v u' r : BKUnitSetAttr u k v = Ok (u', r) -> k = BK_PERIOD \/ k = BK_SAMPLE_PERIOD \/ k = BK_VOLUME \/ k = BK_VOLUME_0 \/ k = BK_VOLUME_0 + 1 -> un_duty u' = un_duty u.
Proof.
  intros E HK. destruct HK as [-> |[-> |[-> |[-> | ->]]]].
  - change (BKUnitSetAttr u BK_PERIOD v) with (let* v := abs32 v in Ok (set_period u (BKMax v BK_MIN_PERIOD), 0)) in E. apply bind_inv in E. destruct E as (w & _ & E).
    match type of E with Ok (?x, _) = _ => assert (u' = x) as -> by congruence end. reflexivity.
  - change (BKUnitSetAttr u BK_SAMPLE_PERIOD v) with
      (let* v := abs32 v in
       let v := BKClamp v BK_MIN_SAMPLE_PERIOD BK_MAX_SAMPLE_PERIOD in
       Ok (set_sm u (s_period (un_sample u) (if sm_period (un_sample u) <? 0 then - v else v)), 0)) in E.
    apply bind_inv in E. destruct E as (w & _ & E). cbv zeta in E. match type of E with Ok (?x, _) = _ => assert (u' = x) as -> by congruence end. reflexivity.
  - rewrite set_all in E. match type of E with Ok (?x, _) = _ => assert (u' = x) as -> by congruence end. reflexivity.
  - rewrite set_first in E. apply bind_inv in E. destruct E as (l & _ & E). match type of E with Ok (?x, _) = _ => assert (u' = x) as -> by congruence end. reflexivity.
  - rewrite set_second in E. apply bind_inv in E. destruct E as (l & _ & E). match type of E with Ok (?x, _) = _ => assert (u' = x) as -> by congruence end. reflexivity.
Qed.
Lemma uattr_duty t k v t' : unit_attr t k v = Ok t' -> k = BK_PERIOD \/ k = BK_SAMPLE_PERIOD \/ k = BK_VOLUME \/ k = BK_VOLUME_0 \/ k = BK_VOLUME_0 + 1 -> un_duty (tr_unit t') = un_duty (tr_unit t).
Proof. intros E HK. apply unit_attr_inv in E. destruct E as (u & r & E & ->). exact (attr_duty_keeps _ _ _ _ _ E HK). Qed.
Lemma volume_duty t t' : BKTrackUpdateUnitVolume t = Ok t' -> un_duty (tr_unit t') = un_duty (tr_unit t).
Proof.
  unfold BKTrackUpdateUnitVolume. intros E. apply bind_inv in E. destruct E as ((v & p) & _ & E). destruct (_ && _).
  - apply bind_inv in E. destruct E as (v0 & _ & E). apply bind_inv in E. destruct E as (v1 & _ & E). apply bind_inv in E. destruct E as (t1 & E1 & E).
    apply uattr_duty in E; [|auto]. apply uattr_duty in E1; [|auto]. congruence.
  - apply uattr_duty in E; auto.
Qed.
Lemma note_duty t t' : BKTrackUpdateUnitNote t = Ok t' -> un_duty (tr_unit t') = un_duty (tr_unit t).
Proof.
  unfold BKTrackUpdateUnitNote. destruct (un_ctx _); [|intros E; congruence]. intros E. apply bind_inv in E. destruct E as (n & _ & E). destruct (negb _).
  - apply bind_inv in E. destruct E as (p & _ & E). destruct (_ =? 0); [discriminate|]. apply uattr_duty in E; auto.
  - apply bind_inv in E. destruct E as (m & _ & E). apply bind_inv in E. destruct E as (p & _ & E). apply uattr_duty in E; auto.
Qed.

Lemma update_keeps t t' : BKTrackUpdateUnit t = Ok t' ->
  (has t FVolume = false -> un_volume (tr_unit t') = un_volume (tr_unit t)) /\
  (has t FDuty = false -> un_duty (tr_unit t') = un_duty (tr_unit t)) /\
  (has t FDuty = true -> exists d, duty_value t = Ok d /\ un_duty (tr_unit t') = Z.max 1 (Z.min 15 d)).
Proof.
  unfold BKTrackUpdateUnit. intros E. apply bind_inv in E. destruct E as (t1 & E1 & E). apply bind_inv in E. destruct E as (t2 & E2 & E).
  assert (K1 : (has t FVolume = false -> un_volume (tr_unit t1) = un_volume (tr_unit t)) /\ un_duty (tr_unit t1) = un_duty (tr_unit t) /\
    has t1 FDuty = has t FDuty /\ duty_value t1 = duty_value t).
  { destruct (has t FVolume).
    - apply bind_inv in E1. destruct E1 as (t3 & E3 & E1). pose proof (volume_duty _ _ E3) as D3.
      assert (exists u, t3 = t_unit t u) as (u & ->).
      { unfold BKTrackUpdateUnitVolume in E3. apply bind_inv in E3. destruct E3 as ((v & p) & _ & E3). destruct (_ && _).
        - apply bind_inv in E3. destruct E3 as (v0 & _ & E3). apply bind_inv in E3. destruct E3 as (v1 & _ & E3). apply bind_inv in E3. destruct E3 as (t4 & E4 & E3).
          apply unit_attr_inv in E4. destruct E4 as (u4 & r4 & _ & ->). apply unit_attr_inv in E3. destruct E3 as (u5 & r5 & _ & ->). exists u5. reflexivity.
        - apply unit_attr_inv in E3. destruct E3 as (u5 & r5 & _ & ->). exists u5. reflexivity. }
      match type of E1 with Ok ?x = _ => assert (t1 = x) as -> by congruence end. split; [discriminate|]. split; [exact D3|]. split; reflexivity.
    - assert (t1 = t) as -> by congruence. auto. }
  destruct K1 as (V1 & D1 & F1 & G1).
  assert (K2 : un_volume (tr_unit t2) = un_volume (tr_unit t1) /\ un_duty (tr_unit t2) = un_duty (tr_unit t1) /\
    has t2 FDuty = has t1 FDuty /\ duty_value t2 = duty_value t1).
  { destruct (has t1 FNote).
    - apply bind_inv in E2. destruct E2 as (t3 & E3 & E2). pose proof (note_duty _ _ E3) as D3. pose proof (note_volume _ _ E3) as V3.
      assert (exists u, t3 = t_unit t1 u) as (u & ->).
      { unfold BKTrackUpdateUnitNote in E3. destruct (un_ctx _); [|exists (tr_unit t1); assert (t3 = t1) as -> by congruence; destruct t1; reflexivity].
        apply bind_inv in E3. destruct E3 as (n & _ & E3). destruct (negb _).
        - apply bind_inv in E3. destruct E3 as (p & _ & E3). destruct (_ =? 0); [discriminate|]. apply unit_attr_inv in E3. destruct E3 as (u5 & r5 & _ & ->). exists u5. reflexivity.
        - apply bind_inv in E3. destruct E3 as (m & _ & E3). apply bind_inv in E3. destruct E3 as (p & _ & E3). apply unit_attr_inv in E3. destruct E3 as (u5 & r5 & _ & ->). exists u5. reflexivity. }
      match type of E2 with Ok ?x = _ => assert (t2 = x) as -> by congruence end. split; [exact V3|]. split; [exact D3|]. split; reflexivity.
    - assert (t2 = t1) as -> by congruence. auto. }
  destruct K2 as (V2 & D2 & F2 & G2). rewrite F2, F1 in E. destruct (has t FDuty).
  - apply bind_inv in E. destruct E as (t3 & E3 & E). pose proof (duty_volume _ _ E3) as V3. destruct (duty_told _ _ E3) as (d & Ed & Du).
    match type of E with Ok ?x = _ => assert (t' = x) as -> by congruence end. change (un_volume (tr_unit (put t3 FDuty false))) with (un_volume (tr_unit t3)).
    change (un_duty (tr_unit (put t3 FDuty false))) with (un_duty (tr_unit t3)). split; [intros N; rewrite V3, V2; apply V1; exact N|]. split; [discriminate|].
    intros _. exists d. split; [rewrite <- G1, <- G2; exact Ed|exact Du].
  - assert (t' = t2) as -> by congruence. split; [intros N; rewrite V2; apply V1; exact N|]. split; [intros _; congruence|discriminate].
Qed.

Lemma loud_keeps fuel t t' : track_ok fuel t -> track_ok fuel t' -> marks t t' -> un_volume (tr_unit t') = un_volume (tr_unit t) -> loud t -> loud t'.
Proof.
  intros H H' M V (l & ML & VL & BL). exists l. split; [exact (measures_marks _ _ _ M ML)|]. split; [|destruct M as (? & ? & ? & ? & ->); exact BL].
  intros k HK. rewrite <- (VL k HK). destruct (tk_unit _ _ H') as ((W' & _) & _). destruct (tk_unit _ _ H) as ((W & _) & _).
  rewrite !volume_attr by (first [destruct (lv_stereo l); lia|rewrite (proj1 (wf_volume _ W)); destruct (lv_stereo l); lia|rewrite (proj1 (wf_volume _ W')); destruct (lv_stereo l); lia]).
  rewrite V. reflexivity.
Qed.
Lemma duty_value_marks t t' : marks t t' -> duty_value t' = duty_value t.
Proof. intros (u & a & b & c & ->). reflexivity. Qed.

Lemma attr_mute_keeps u k v u' r : BKUnitSetAttr u k v = Ok (u', r) -> k = BK_PERIOD \/ k = BK_SAMPLE_PERIOD \/ k = BK_VOLUME \/ k = BK_VOLUME_0 \/ k = BK_VOLUME_0 + 1 \/ k = BK_DUTY_CYCLE -> un_mute u' = un_mute u.
Proof.
  intros E HK. destruct HK as [-> |[-> |[-> |[-> |[-> | ->]]]]].
  - change (BKUnitSetAttr u BK_PERIOD v) with (let* v := abs32 v in Ok (set_period u (BKMax v BK_MIN_PERIOD), 0)) in E. apply bind_inv in E. destruct E as (w & _ & E).
    match type of E with Ok (?x, _) = _ => assert (u' = x) as -> by congruence end. reflexivity.
  - change (BKUnitSetAttr u BK_SAMPLE_PERIOD v) with
      (let* v := abs32 v in
       let v := BKClamp v BK_MIN_SAMPLE_PERIOD BK_MAX_SAMPLE_PERIOD in
       Ok (set_sm u (s_period (un_sample u) (if sm_period (un_sample u) <? 0 then - v else v)), 0)) in E.
    apply bind_inv in E. destruct E as (w & _ & E). cbv zeta in E. match type of E with Ok (?x, _) = _ => assert (u' = x) as -> by congruence end. reflexivity.
  - rewrite set_all in E. match type of E with Ok (?x, _) = _ => assert (u' = x) as -> by congruence end. reflexivity.
  - rewrite set_first in E. apply bind_inv in E. destruct E as (l & _ & E). match type of E with Ok (?x, _) = _ => assert (u' = x) as -> by congruence end. reflexivity.
  - rewrite set_second in E. apply bind_inv in E. destruct E as (l & _ & E). match type of E with Ok (?x, _) = _ => assert (u' = x) as -> by congruence end. reflexivity.
  - unfold BKUnitSetAttr in E. cbv zeta in E. change (BK_DUTY_CYCLE =? BK_DUTY_CYCLE) with true in E. cbv iota in E.
    destruct (negb _); match type of E with Ok (?x, _) = _ => assert (u' = x) as -> by congruence end; [|reflexivity]; clear; destruct (_ && _); reflexivity.
Qed.
Lemma uattr_mute t k v t' : unit_attr t k v = Ok t' -> k = BK_PERIOD \/ k = BK_SAMPLE_PERIOD \/ k = BK_VOLUME \/ k = BK_VOLUME_0 \/ k = BK_VOLUME_0 + 1 \/ k = BK_DUTY_CYCLE -> un_mute (tr_unit t') = un_mute (tr_unit t).
Proof. intros E HK. apply unit_attr_inv in E. destruct E as (u & r & E & ->). exact (attr_mute_keeps _ _ _ _ _ E HK). Qed.
Lemma update_mute t t' : BKTrackUpdateUnit t = Ok t' -> un_mute (tr_unit t') = un_mute (tr_unit t).
Proof.
  unfold BKTrackUpdateUnit. intros E. apply bind_inv in E. destruct E as (t1 & E1 & E). apply bind_inv in E. destruct E as (t2 & E2 & E).
  assert (M1 : un_mute (tr_unit t1) = un_mute (tr_unit t)).
  { destruct (has t FVolume); [|congruence]. apply bind_inv in E1. destruct E1 as (ta & Ea & E1). assert (t1 = put ta FVolume false) as -> by congruence. change (un_mute (tr_unit ta) = un_mute (tr_unit t)). clear - Ea.
    unfold BKTrackUpdateUnitVolume in Ea. apply bind_inv in Ea. destruct Ea as ((v & p) & _ & E). destruct (_ && _).
    - apply bind_inv in E. destruct E as (v0 & _ & E). apply bind_inv in E. destruct E as (v1 & _ & E). apply bind_inv in E. destruct E as (t1 & E1 & E).
      apply uattr_mute in E; [|auto 7]. apply uattr_mute in E1; [|auto 7]. congruence.
    - apply uattr_mute in E; auto 7. }
  assert (M2 : un_mute (tr_unit t2) = un_mute (tr_unit t1)).
  { destruct (has t1 FNote); [|congruence]. apply bind_inv in E2. destruct E2 as (ta & Ea & E2). assert (t2 = put ta FNote false) as -> by congruence. change (un_mute (tr_unit ta) = un_mute (tr_unit t1)). clear - Ea.
    unfold BKTrackUpdateUnitNote in Ea. destruct (un_ctx _); [|congruence]. apply bind_inv in Ea. destruct Ea as (n & _ & E). destruct (negb _).
    - apply bind_inv in E. destruct E as (p & _ & E). destruct (_ =? 0); [discriminate|]. apply uattr_mute in E; auto 7.
    - apply bind_inv in E. destruct E as (m & _ & E). apply bind_inv in E. destruct E as (p & _ & E). apply uattr_mute in E; auto 7. }
  rewrite <- M1, <- M2. clear - E. destruct (has t2 FDuty); [|congruence].
  apply bind_inv in E. destruct E as (ta & Ea & E). assert (t' = put ta FDuty false) as -> by congruence. change (un_mute (tr_unit ta) = un_mute (tr_unit t2)). clear - Ea.
  unfold BKTrackUpdateUnitDutyCycle in Ea. apply bind_inv in Ea. destruct Ea as (d & _ & E). apply uattr_mute in E; auto 7.
Qed.

(** What is marked is told to the unit; what is not is known to it. *)
Definition told (t : track) : Prop :=
  (has t FVolume = true \/ loud t) /\ (has t FNote = true \/ in_tune t) /\ (has t FDuty = true \/ dutied t).

Lemma update_heard fuel t : track_ok fuel t -> un_ctx (tr_unit t) <> None -> told t ->
  exists t', BKTrackUpdateUnit t = Ok t' /\ track_ok fuel t' /\ marks t t' /\ un_ctx (tr_unit t') = un_ctx (tr_unit t) /\ un_mute (tr_unit t') = un_mute (tr_unit t) /\ loud t' /\ in_tune t' /\ dutied t'.
Proof.
  intros H HC (TV & TN & TD). destruct (update_plays fuel t H) as (t' & E & H' & M & ST & C & PL & TU). exists t'.
  destruct (update_keeps t t' E) as (KV & KD & ND).
  split; [exact E|]. split; [exact H'|]. split; [exact M|]. split; [exact C|]. split; [exact (update_mute t t' E)|]. split; [|split].
  - destruct (has t FVolume) eqn:EV; [exact (update_loud fuel t t' H EV E)|]. destruct TV as [TV|TV]; [discriminate|].
    exact (loud_keeps fuel t t' H H' M (KV eq_refl) TV).
  - destruct (has t FNote) eqn:EN.
    + destruct (PL HC eq_refl) as (n & En & P). exists n. split; [rewrite (track_note_marks _ _ M); exact En|exact P].
    + destruct TN as [TN|(n & En & P)]; [discriminate|]. exists n. split; [rewrite (track_note_marks _ _ M); exact En|].
      destruct (marks_keep _ _ M) as (K1 & K2 & K3). apply (plays_tuned t t' n P (TU eq_refl)); assumption.
  - unfold dutied. rewrite (duty_value_marks _ _ M), duty_attr. destruct (has t FDuty) eqn:ED.
    + destruct (ND eq_refl) as (d & Ed & Du). exists d. split; [exact Ed|]. rewrite Du, s32_id by lia. reflexivity.
    + destruct TD as [TD|(d & Ed & Du)]; [discriminate|]. exists d. split; [exact Ed|]. rewrite (KD eq_refl). rewrite duty_attr in Du. exact Du.
Qed.

(** ** One tick *)

Lemma ticked_none fuel level sqs : forall sts i, nth_error sqs i = Some None -> length sqs = length sts -> nth_error (ticked fuel sqs level sts) i = nth_error sts i.
Proof.
  unfold ticked. induction sqs as [|sq sqs IH]; intros [|st sts] [|i] E L; cbn in *; try discriminate.
  - assert (sq = None) as -> by congruence. reflexivity.
  - apply IH; [exact E|lia].
Qed.
Lemma aget_same {A} (l l' : list A) i : 0 <= i -> length l = length l' -> nth_error l (Z.to_nat i) = nth_error l' (Z.to_nat i) -> aget l i = aget l' i.
Proof. intros Hi L E. unfold aget. rewrite L, E. reflexivity. Qed.

Lemma flags_has t : has (BKTrackInstrumentUpdateFlags t false) FVolume = has t FVolume || some_seq t BK_SEQUENCE_VOLUME || some_seq t BK_SEQUENCE_PANNING /\
  has (BKTrackInstrumentUpdateFlags t false) FNote = has t FNote || some_seq t BK_SEQUENCE_PITCH /\
  has (BKTrackInstrumentUpdateFlags t false) FDuty = has t FDuty || some_seq t BK_SEQUENCE_DUTY_CYCLE.
Proof.
  unfold BKTrackInstrumentUpdateFlags. cbv zeta.
  assert (K : forall (b : bool) t0 k i, some_seq (if b then put t0 k true else t0) i = some_seq t0 i) by (intros [|]; reflexivity). rewrite !K.
  assert (P : forall (b : bool) t0 k j, k = FVolume \/ k = FNote \/ k = FDuty -> j = FVolume \/ j = FNote \/ j = FDuty ->
    has (if b then put t0 k true else t0) j = has t0 j || b && match k, j with FVolume, FVolume | FNote, FNote | FDuty, FDuty => true | _, _ => false end).
  { intros [|] t0 k j Hk Hj; [|rewrite orb_false_r; reflexivity]. destruct Hk as [-> |[-> | ->]]; destruct Hj as [-> |[-> | ->]]; cbn [andb]; rewrite ?orb_true_r, ?orb_false_r; reflexivity. }
  rewrite !P by auto. rewrite ?andb_true_r, ?andb_false_r, ?orb_false_r. repeat split; reflexivity.
Qed.

Lemma tick_instr fuel sqs t : track_ok fuel t -> slots fuel sqs t -> any_effect t = false -> has t FArp = false -> un_ctx (tr_unit t) <> None -> told t ->
  playing sqs (tr_istate t) -> let lv := if fires (tr_instrDiv t) then 1 else 0 in let sts := is_states (tr_istate t) in
  (0 <? unfinished sqs sts) && (unfinished sqs (ticked fuel sqs lv sts) =? 0) = false ->
  exists s' t', BKTrackTick fuel t = Ok t' /\ track_ok fuel t' /\ marks (t_istate (t_instrDiv t (div_next (tr_instrDiv t))) s') t' /\
    un_ctx (tr_unit t') = un_ctx (tr_unit t) /\ un_mute (tr_unit t') = un_mute (tr_unit t) /\ loud t' /\ in_tune t' /\ dutied t' /\
    is_states s' = ticked fuel sqs lv sts /\ is_phase s' = is_phase (tr_istate t) /\ playing sqs s' /\ is_muted s' = is_muted (tr_istate t).
Proof.
  intros H SL HE HA HC T PL lv sts HU. destruct (track_slots fuel sqs t H SL) as (F & HI). destruct SL as (id & EI).
  destruct (effect_on t HE) as (V1 & V2 & V3 & V4 & V5).
  assert (EF : BKTrackEffectUpdateFlags t = t) by (unfold BKTrackEffectUpdateFlags; rewrite V3; cbv zeta; rewrite V1, V2, V4, V5; reflexivity).
  unfold BKTrackTick. rewrite EF. cbv zeta. rewrite HA. cbn [bind]. rewrite HI.
  destruct (divtick_ok _ (tk_instrDiv _ _ H)) as (d & b & -> & D & Eb & Ed). cbn [bind]. change (d = div_next (tr_instrDiv t)) in Ed. change (b = fires (tr_instrDiv t)) in Eb. subst d b. fold lv.
  assert (HL : 0 <= lv) by (unfold lv; destruct (fires _); lia). clearbody lv.
  set (t1 := t_instrDiv t (div_next (tr_instrDiv t))). pose proof (ok_instrDiv fuel t _ H D) as H1. fold t1 in H1.
  pose proof (sok_slots _ _ _ _ F) as SO.
  destruct (tick_playing fuel sqs (tr_istate t) lv SO PL HL) as (s' & ES & SO' & Q). fold sts in Q. rewrite HU in Q. destruct Q as (Q1 & Q2 & Q3 & Q4).
  unfold BKTrackInstrumentTick. change (tr_instr t1) with (tr_instr t). rewrite EI.
  assert (EL : track_tick_loop fuel (Z.to_nat (in_numSequences (BKInstrumentUpdateNumSequences sqs))) 0 t1 lv = Ok (t_istate t1 s')).
  { apply (loop_track fuel id (BKInstrumentUpdateNumSequences sqs)); [lia|exact EI|exact ES|exact Q4]. }
  assert (HIT : exists t', BKTrackInstrumentTick fuel t1 lv = Ok t' /\ goes fuel t1 t') by (apply instr_tick_ok; [exact H1|exact HL|exact HI]).
  destruct HIT as (t2 & E2 & (H2 & _)). unfold BKTrackInstrumentTick in E2. change (tr_instr t1) with (tr_instr t) in E2. rewrite EI, EL in E2. cbn [bind] in E2.
  rewrite EL. cbn [bind]. set (t3 := BKTrackInstrumentUpdateFlags (t_istate t1 s') false) in *. assert (t2 = t3) as -> by congruence. clear E2.
  pose proof (flags_marks (t_istate t1 s') false) as M3. fold t3 in M3.
  pose proof (Forall3_length _ _ _ _ F) as (L1 & L2). change (length slot_ranges) with 4%nat in L1, L2. fold sts in L2.
  assert (SV : forall i, 0 <= i < 4 -> some_seq (t_istate t1 s') i = false -> slot_value (t_istate t1 s') i = slot_value t i).
  { intros i Hi E. unfold slot_value. cbn [tr_istate t_istate]. rewrite Q2. fold sts. rewrite (aget_same (ticked fuel sqs lv sts) sts i); [reflexivity|lia| |].
    - unfold ticked. rewrite map_length, combine_length. lia.
    - apply ticked_none; [|congruence]. unfold some_seq, slot_sequence in E. change (tr_instr (t_istate t1 s')) with (tr_instr t) in E. rewrite EI in E. cbn [in_sequences BKInstrumentUpdateNumSequences] in E.
      destruct (nth_error sqs (Z.to_nat i)) as [q|] eqn:EN; [|apply nth_error_None in EN; lia]. rewrite (nth_error_nth _ _ None EN) in E. destruct q; [discriminate|reflexivity]. }
  assert (R4 : forall i, (0 <=? i) && (i <? 4) = true -> 0 <= i < 4) by (intros i E; apply andb_true_iff in E; lia).
  assert (UT : tr_unit t3 = tr_unit t) by (unfold t3; rewrite marks_unit_same; reflexivity).
  assert (T3 : told t3).
  { destruct (flags_has (t_istate t1 s')) as (FV & FN & FD). fold t3 in FV, FN, FD. destruct T as (TV & TN & TD). split; [|split].
    - rewrite FV. change (has (t_istate t1 s') FVolume) with (has t FVolume). destruct (has t FVolume); [left; reflexivity|].
      destruct TV as [TV|(l & ML & VL & BL)]; [discriminate|]. cbn [orb]. destruct (some_seq _ BK_SEQUENCE_VOLUME) eqn:E0; [left; reflexivity|].
      destruct (some_seq _ BK_SEQUENCE_PANNING) eqn:E1; [left; reflexivity|]. right. exists l. split; [|split].
      + apply (measures_marks (t_istate t1 s') t3 l M3). unfold measures in *. rewrite (SV BK_SEQUENCE_VOLUME (R4 BK_SEQUENCE_VOLUME eq_refl) E0), (SV BK_SEQUENCE_PANNING (R4 BK_SEQUENCE_PANNING eq_refl) E1). exact ML.
      + intros k HK. rewrite <- (VL k HK). destruct (tk_unit _ _ H) as ((W & _) & _).
        rewrite !volume_attr by (first [rewrite ?UT; destruct (lv_stereo l); lia|rewrite ?UT, (proj1 (wf_volume _ W)); destruct (lv_stereo l); lia]). rewrite UT. reflexivity.
      + destruct M3 as (? & ? & ? & ? & EM). rewrite EM. exact BL.
    - rewrite FN. change (has (t_istate t1 s') FNote) with (has t FNote). destruct (has t FNote); [left; reflexivity|].
      destruct TN as [TN|(n & En & P)]; [discriminate|]. cbn [orb]. destruct (some_seq _ BK_SEQUENCE_PITCH) eqn:E0; [left; reflexivity|]. right. exists n. split.
      + rewrite (track_note_marks _ _ M3). unfold track_note in *. rewrite (SV BK_SEQUENCE_PITCH (R4 BK_SEQUENCE_PITCH eq_refl) E0). exact En.
      + destruct (marks_keep _ _ M3) as (K1 & K2 & K3). apply (plays_tuned t t3 n P); [rewrite UT; apply tuned_refl|assumption..].
    - rewrite FD. change (has (t_istate t1 s') FDuty) with (has t FDuty). destruct (has t FDuty); [left; reflexivity|].
      destruct TD as [TD|(x & Ex & P)]; [discriminate|]. cbn [orb]. destruct (some_seq _ BK_SEQUENCE_DUTY_CYCLE) eqn:E0; [left; reflexivity|]. right. exists x. split.
      + rewrite (duty_value_marks _ _ M3). unfold duty_value in *. rewrite (SV BK_SEQUENCE_DUTY_CYCLE (R4 BK_SEQUENCE_DUTY_CYCLE eq_refl) E0). exact Ex.
      + rewrite duty_attr, UT. exact P. }
  destruct (update_heard fuel t3 H2 ltac:(rewrite UT; exact HC) T3) as (t' & -> & H' & M' & C' & MU' & LO & TU & DU). cbn [bind].
  pose proof (marks_trans _ _ _ M3 M') as MT.
  assert (EE : any_effect t' = false).
  { unfold any_effect. rewrite !(marks_has _ _ _ MT) by discriminate. exact HE. }
  rewrite EE. exists s', t'. split; [reflexivity|]. split; [exact H'|]. split; [exact MT|]. split; [rewrite C', UT; reflexivity|]. split; [rewrite MU', UT; reflexivity|].
  repeat (split; [assumption|]). exact Q4.
Qed.
