(** Notes one after another on a track with an instrument: what stays from event to event. *)
From Verif Require Import CInt CIntFacts DataModel UnitModel UnitSpec UnitProofs UnitProofs2 UnitProofs5 UnitInv UnitInv2 UnitInv3 UnitCount
  InterpModel InterpProofs SlideIn ToneModel PropertiesTone SequenceModel SequenceSpec SequenceProofs InstrumentProofs InstrBounds
  TrackModel TrackSpec TrackInv TrackProofs TrackProofs2 TrackProofs3 TrackProofs4 TrackProofs5 TrackProofs6 TrackVolume TrackPlay TrackTicks TrackNote TrackAttrs
  TrackInstr TrackInstr2 TrackInstr3 TrackInstr4 TrackInstr5.
Ltac Zify.zify_post_hook ::= idtac.
Local Notation ticked := SequenceSpec.ticked.
Local Notation played := SequenceSpec.played.

(** ** Units *)

Definition same_unit (u u' : bkunit) : Prop := un_volume u' = un_volume u /\ un_duty u' = un_duty u /\ un_sustain u' = un_sustain u /\ un_ctx u' = un_ctx u.
Lemma same_unit_refl u : same_unit u u.
Proof. repeat split. Qed.
Lemma same_unit_trans u v w : same_unit u v -> same_unit v w -> same_unit u w.
Proof. intros (A1 & A2 & A3 & A4) (B1 & B2 & B3 & B4). repeat split; congruence. Qed.
Lemma mute_same u v u' r : BKUnitSetAttr u BK_MUTE v = Ok (u', r) -> same_unit u u'.
Proof.
  intros E. change (BKUnitSetAttr u BK_MUTE v) with (@Ok (bkunit * Z) (set_mute u (if v =? 0 then 0 else 1), 0)) in E.
  match type of E with Ok (?x, 0) = _ => assert (u' = x) as -> by congruence end. repeat split.
Qed.
Lemma release_same u v u' r : BKUnitSetAttr u BK_FLAG_RELEASE v = Ok (u', r) -> same_unit u u'.
Proof. intros E. destruct (release_keeps _ _ _ _ E) as (A & B). destruct (release_held _ _ _ _ E) as ((C & _ & _ & _ & _ & D) & _). repeat split; assumption. Qed.
Lemma phase_same u v u' r : BKUnitSetAttr u BK_PHASE v = Ok (u', r) -> same_unit u u' /\ un_mute u' = un_mute u.
Proof.
  unfold BKUnitSetAttr. cbv zeta. change (BK_PHASE =? BK_DUTY_CYCLE) with false. change (BK_PHASE =? BK_WAVEFORM) with false.
  change (BK_PHASE =? BK_PHASE) with true. cbv iota. destruct (negb _).
  - intros E. match type of E with Ok (?x, _) = _ => assert (u' = x) as -> by congruence end. repeat split.
  - intros E. match type of E with Ok (?x, _) = _ => assert (u' = x) as -> by congruence end. repeat split.
Qed.

(** ** Tracks *)

(** The instrument, the values of its empty slots and what the unit knows; marks are not taken
    back. *)
Definition stays (sqs : list (option sequence)) (t t' : track) : Prop :=
  tr_instr t' = tr_instr t /\ same_unit (tr_unit t) (tr_unit t') /\ empties sqs (is_states (tr_istate t)) (is_states (tr_istate t')) /\
  forall x, has t x = true -> has t' x = true.
Lemma stays_refl sqs t : stays sqs t t.
Proof. split; [reflexivity|]. split; [apply same_unit_refl|]. split; [apply empties_refl|auto]. Qed.
Lemma stays_trans sqs t1 t2 t3 : stays sqs t1 t2 -> stays sqs t2 t3 -> stays sqs t1 t3.
Proof.
  intros (A1 & A2 & A3 & A4) (B1 & B2 & B3 & B4). split; [congruence|]. split; [exact (same_unit_trans _ _ _ A2 B2)|]. split; [exact (empties_trans _ _ _ _ A3 B3)|]. intros x X. apply B4, A4, X.
Qed.
Lemma stays_unit sqs t u : same_unit (tr_unit t) u -> stays sqs t (t_unit t u).
Proof. intros S. split; [reflexivity|]. split; [exact S|]. split; [apply empties_refl|auto]. Qed.
Lemma stays_istate sqs t s : empties sqs (is_states (tr_istate t)) (is_states s) -> stays sqs t (t_istate t s).
Proof. intros S. split; [reflexivity|]. split; [apply same_unit_refl|]. split; [exact S|auto]. Qed.
Lemma stays_put sqs t k : stays sqs t (put t k true).
Proof.
  split; [reflexivity|]. split; [apply same_unit_refl|]. split; [apply empties_refl|]. intros x X. unfold has, put in *. cbn [tr_flags t_flags].
  destruct (tr_flags t). destruct x, k; cbn in *; first [reflexivity|assumption].
Qed.
Lemma stays_flags sqs t : stays sqs t (BKTrackInstrumentUpdateFlags t false).
Proof.
  pose proof (flags_marks t false) as M. destruct (flags_has t) as (FV & FN & FD). split; [destruct M as (? & ? & ? & ? & ->); reflexivity|]. split; [rewrite marks_unit_same; apply same_unit_refl|].
  split; [assert (E : tr_istate (BKTrackInstrumentUpdateFlags t false) = tr_istate t) by (destruct M as (? & ? & ? & ? & ->); reflexivity); rewrite E; apply empties_refl|].
  intros x X. destruct x; try (rewrite (marks_has _ _ _ M) by discriminate; exact X); [rewrite FV, X|rewrite FN, X|rewrite FD, X]; reflexivity.
Qed.
Lemma stays_attr sqs t a v t' : unit_attr t a v = Ok t' -> a = BK_MUTE \/ a = BK_FLAG_RELEASE \/ a = BK_PHASE -> stays sqs t t'.
Proof.
  intros E HA. apply unit_attr_inv in E. destruct E as (u & r & E & ->). apply stays_unit.
  destruct HA as [-> |[-> | ->]]; [exact (mute_same _ _ _ _ E)|exact (release_same _ _ _ _ E)|exact (proj1 (phase_same _ _ _ _ E))].
Qed.

(** What has a sequence is marked. *)
Definition flagged (t : track) : Prop :=
  (some_seq t BK_SEQUENCE_VOLUME = true \/ some_seq t BK_SEQUENCE_PANNING = true -> has t FVolume = true) /\
  (some_seq t BK_SEQUENCE_PITCH = true -> has t FNote = true) /\ (some_seq t BK_SEQUENCE_DUTY_CYCLE = true -> has t FDuty = true).
Lemma flags_flagged t : flagged (BKTrackInstrumentUpdateFlags t false).
Proof.
  destruct (flags_has t) as (FV & FN & FD). assert (S : forall i, some_seq (BKTrackInstrumentUpdateFlags t false) i = some_seq t i).
  { intros i. unfold some_seq, slot_sequence. destruct (flags_marks t false) as (? & ? & ? & ? & ->). reflexivity. }
  split; [|split]; rewrite !S; [rewrite FV; intros [-> | ->]|rewrite FN; intros ->|rewrite FD; intros ->]; rewrite ?orb_true_r; reflexivity.
Qed.
Lemma stays_flagged sqs t t' : stays sqs t t' -> flagged t -> flagged t'.
Proof.
  intros (A & _ & _ & B) (F1 & F2 & F3). assert (S : forall i, some_seq t' i = some_seq t i) by (intros i; unfold some_seq, slot_sequence; rewrite A; reflexivity).
  split; [|split]; rewrite !S; intros X; apply B; auto.
Qed.

(** The unit is told. *)
Lemma told_stays fuel sqs t t' : track_ok fuel t -> track_ok fuel t' -> slots fuel sqs t -> stays sqs t t' -> settings t t' -> flagged t' ->
  any_effect t = false -> any_effect t' = false -> has t FArp = false -> has t' FArp = false ->
  (has t' FNote = true \/ tr_note t' = tr_note t /\ tr_unit t' = tr_unit t /\ tr_waveform t' = tr_waveform t /\ tr_samplePitch t' = tr_samplePitch t /\ tr_rate t' = tr_rate t) -> told t -> told t'.
Proof.
  intros H H' SL (ST1 & (UV & UD & _) & EM & FL) (S1 & S2 & S3 & S4 & S5 & S6 & S7) (G1 & G2 & G3) HE HE' HA HA' HN (TV & TN & TD).
  pose proof SL as (id & EI). assert (SL' : slots fuel sqs t') by (exists id; congruence). destruct (track_slots fuel sqs t H SL) as (F & HI). destruct (track_slots fuel sqs t' H' SL') as (F' & HI').
  pose proof (Forall3_length _ _ _ _ F) as (L1 & L2). pose proof (Forall3_length _ _ _ _ F') as (L3 & L4). change (length slot_ranges) with 4%nat in L1, L2, L3, L4.
  assert (SV : forall i, (0 <=? i) && (i <? 4) = true -> some_seq t' i = false -> slot_value t' i = slot_value t i).
  { intros i Hi E. apply andb_true_iff in Hi. unfold slot_value. rewrite (aget_same (is_states (tr_istate t')) (is_states (tr_istate t)) i); [reflexivity|lia|congruence|].
    apply EM. unfold some_seq, slot_sequence in E. rewrite ST1, EI in E. cbn [in_sequences BKInstrumentUpdateNumSequences] in E.
    destruct (nth_error sqs (Z.to_nat i)) as [q|] eqn:EN; [|apply nth_error_None in EN; lia]. rewrite (nth_error_nth _ _ None EN) in E. destruct q; [discriminate|reflexivity]. }
  destruct (effect_on t HE) as (_ & _ & _ & EF4 & EF5). destruct (effect_on t' HE') as (_ & _ & _ & EF4' & EF5'). split; [|split].
  - destruct (has t' FVolume) eqn:EV; [left; reflexivity|]. right. destruct TV as [TV|(l & ML & VL & BL)]; [apply FL in TV; congruence|].
    assert (E0 : some_seq t' BK_SEQUENCE_VOLUME = false) by (destruct (some_seq t' BK_SEQUENCE_VOLUME) eqn:E0; [assert (false = true) by auto; discriminate|reflexivity]).
    assert (E1 : some_seq t' BK_SEQUENCE_PANNING = false) by (destruct (some_seq t' BK_SEQUENCE_PANNING) eqn:E1; [assert (false = true) by auto; discriminate|reflexivity]).
    exists l. split; [|split].
    + destruct ML as (ML1 & ML2 & ML3 & ML4 & ML5 & ML6 & ML7). unfold measures. rewrite (SV BK_SEQUENCE_VOLUME eq_refl E0), (SV BK_SEQUENCE_PANNING eq_refl E1), S1, S2, S3, S6, S7, HI', EF4'. rewrite HI in ML6. rewrite EF4 in ML7.
      repeat (split; [assumption|]). destruct (lv_tremolo l) as [x|]; [destruct ML7 as (Z1 & _); congruence|exact ML7].
    + intros k HK. rewrite <- (VL k HK). destruct (tk_unit _ _ H) as ((W & _) & _). destruct (tk_unit _ _ H') as ((W' & _) & _).
      rewrite !volume_attr by (first [destruct (lv_stereo l); lia|rewrite (proj1 (wf_volume _ W)); destruct (lv_stereo l); lia|rewrite (proj1 (wf_volume _ W')); destruct (lv_stereo l); lia]). rewrite UV. reflexivity.
    + rewrite S3. exact BL.
  - destruct (has t' FNote) eqn:EV; [left; reflexivity|]. right. destruct HN as [HN|(N1 & N2 & N3 & N4 & N5)]; [discriminate|].
    destruct TN as [TN|(n & En & P)]; [apply FL in TN; congruence|].
    assert (E0 : some_seq t' BK_SEQUENCE_PITCH = false) by (destruct (some_seq t' BK_SEQUENCE_PITCH) eqn:E0; [assert (false = true) by auto; discriminate|reflexivity]).
    exists n. split; [|apply (plays_tuned t t' n P); [rewrite N2; apply tuned_refl|assumption..]].
    unfold track_note in *. rewrite N1, HA', EF5', HI', S4, (SV BK_SEQUENCE_PITCH eq_refl E0). rewrite HA, EF5, HI in En. exact En.
  - destruct (has t' FDuty) eqn:EV; [left; reflexivity|]. right. destruct TD as [TD|(x & Ex & P)]; [apply FL in TD; congruence|].
    assert (E0 : some_seq t' BK_SEQUENCE_DUTY_CYCLE = false) by (destruct (some_seq t' BK_SEQUENCE_DUTY_CYCLE) eqn:E0; [assert (false = true) by auto; discriminate|reflexivity]).
    exists x. split; [|rewrite duty_attr in *; rewrite UD; exact P]. unfold duty_value in *. rewrite HI', S5, (SV BK_SEQUENCE_DUTY_CYCLE eq_refl E0). rewrite HI in Ex. exact Ex.
Qed.

(** ** Parts of events *)

Section Instrument.
Context (fuel : nat) (id : Z) (sqs : list (option sequence)).
Let instr := BKInstrumentUpdateNumSequences sqs.

Lemma plain_stays t p t' b : tr_instr t = Some (id, instr) -> set_phase_plain fuel t p = Ok (t', b) -> stays sqs t t'.
Proof.
  intros EI. unfold set_phase_plain. rewrite EI. intros E. apply bind_inv in E. destruct E as (s & E1 & E).
  assert (t' = t_istate t s) as -> by congruence. apply stays_istate. exact (phase_empties _ _ _ _ _ E1).
Qed.
Lemma note_mute_stays set_phase t t' : tr_instr t = Some (id, instr) -> has t FInstr = true ->
  (forall t1 t2, tr_instr t1 = Some (id, instr) -> has t1 FInstr = true -> set_phase t1 0 = Ok t2 -> stays sqs t1 t2) -> set_note_mute set_phase t = Ok t' ->
  stays sqs t t' /\ flagged t' /\ has t' FNote = true.
Proof.
  intros EI HI HS. unfold set_note_mute. cbv zeta. intros E.
  set (t1 := t_note (t_curNote t (-1)) (BKSlideStateHalt (tr_note (t_curNote t (-1))) true)) in *.
  assert (K1 : stays sqs t t1) by (split; [reflexivity|]; split; [apply same_unit_refl|]; split; [apply empties_refl|auto]).
  change (has t1 FInstr) with (has t FInstr) in E. rewrite HI in E.
  apply bind_inv in E. destruct E as (t2 & E2 & E). apply bind_inv in E. destruct E as (t3 & E3 & E). apply bind_inv in E. destruct E as (t4 & E4 & E).
  assert (t' = put t4 FNote true) as -> by congruence. apply bind_inv in E2. destruct E2 as (ta & Ea & E2). assert (t2 = BKTrackInstrumentUpdateFlags ta false) as -> by congruence.
  pose proof (stays_attr sqs _ _ _ _ E3 ltac:(auto)) as K3. pose proof (stays_attr sqs _ _ _ _ E4 ltac:(auto)) as K4.
  assert (KE : stays sqs (BKTrackInstrumentUpdateFlags ta false) (put t4 FNote true)) by (eapply stays_trans; [exact K3|]; eapply stays_trans; [exact K4|]; apply stays_put).
  split; [|split; [exact (stays_flagged _ _ _ KE (flags_flagged ta))|reflexivity]].
  eapply stays_trans; [exact K1|]. eapply stays_trans; [exact (HS t1 ta EI HI Ea)|]. eapply stays_trans; [apply stays_flags|exact KE].
Qed.
Lemma set_phase_stays t p t' : tr_instr t = Some (id, instr) -> has t FInstr = true -> track_set_phase fuel t p = Ok t' ->
  stays sqs t t' /\ (has t' FNote = true \/ tr_note t' = tr_note t /\ tr_unit t' = tr_unit t).
Proof.
  intros EI HI. unfold track_set_phase. intros E. apply bind_inv in E. destruct E as ((t1 & b) & E1 & E). pose proof (plain_stays _ _ _ _ EI E1) as K1.
  destruct b.
  - unfold mute_event in E. destruct (note_mute_stays (set_phase_inner fuel) t1 t') as (K2 & _ & N2).
    + rewrite (proj1 K1). exact EI.
    + apply K1. exact HI.
    + intros ta tb Ea _ Eb. unfold set_phase_inner in Eb. apply bind_inv in Eb. destruct Eb as ((tc & b) & Ec & Eb). destruct b; [discriminate|].
      assert (tb = tc) as -> by congruence. exact (plain_stays _ _ _ _ Ea Ec).
    + exact E.
    + split; [exact (stays_trans _ _ _ _ K1 K2)|left; exact N2].
  - assert (t' = t1) as -> by congruence. split; [exact K1|]. right. unfold set_phase_plain in E1. rewrite EI in E1. apply bind_inv in E1. destruct E1 as (s & _ & E1).
    assert (t1 = t_istate t s) as -> by congruence. auto.
Qed.
Lemma init_stays t t' : tr_instr t = Some (id, instr) -> BKTrackSetInstrumentInitValues t = Ok t' -> stays sqs t t'.
Proof.
  intros EI E. pose proof (init_keeps id sqs t t' EI E) as (_ & _ & _ & _ & K5). unfold BKTrackSetInstrumentInitValues in E.
  assert (D : exists s, t' = t_istate t s).
  { assert (R : forall x, Ok t = Ok x -> exists s, x = t_istate t s) by (intros x X; assert (x = t) as -> by congruence; exists (tr_istate t); destruct t; reflexivity).
    destruct (has t FInstr); [|apply R, E]. rewrite EI in E. destruct (slot_sequence _ _); [|apply R, E]. cbv zeta in E.
    apply bind_inv in E. destruct E as (st & _ & E). apply bind_inv in E. destruct E as (st1 & _ & E). apply bind_inv in E. destruct E as (sts & _ & E).
    match type of E with Ok (t_istate t ?x) = _ => exists x; congruence end. }
  destruct D as (s & ->). apply stays_istate. exact K5.
Qed.
Lemma loop_stays level n : forall i t t', 0 <= i -> tr_instr t = Some (id, instr) -> has t FInstr = true -> track_tick_loop fuel n i t level = Ok t' ->
  stays sqs t t' /\ (has t' FNote = true \/ tr_note t' = tr_note t /\ tr_unit t' = tr_unit t).
Proof.
  induction n as [|n IH]; intros i t t' Hi EI HI E; cbn [track_tick_loop] in E; [assert (t' = t) as -> by congruence; split; [apply stays_refl|auto]|].
  cbv zeta in E. apply bind_inv in E. destruct E as (st & E0 & E). apply bind_inv in E. destruct E as ((st1 & r) & E1 & E). apply bind_inv in E. destruct E as (sts & E2 & E).
  apply bind_inv in E. destruct E as (t1 & E3 & E).
  assert (EM : empties sqs (is_states (tr_istate t)) sts).
  { intros j EJ. unfold aset in E2. destruct (_ && _) eqn:B; [|discriminate]. assert (sts = upd (is_states (tr_istate t)) (Z.to_nat i) st1) as -> by congruence.
    rewrite nth_error_upd. destruct (Nat.eqb_spec (Z.to_nat i) j) as [C|_]; [|reflexivity].
    assert (SN : slot_sequence t i = None) by (unfold slot_sequence; rewrite EI; cbn [in_sequences instr BKInstrumentUpdateNumSequences]; rewrite C; exact (nth_error_nth _ _ None EJ)).
    rewrite SN in E1. cbn in E1. assert (st1 = st) as -> by congruence. subst j. unfold aget in E0. destruct ((0 <=? i) && _); [|discriminate].
    destruct (nth_error (is_states (tr_istate t)) (Z.to_nat i)) as [x|] eqn:N; [|discriminate]. assert (x = st) as -> by congruence.
    destruct (Nat.ltb _ _) eqn:LT; [reflexivity|]. apply Nat.ltb_ge in LT. apply nth_error_None in LT. congruence. }
  assert (K : stays sqs t t1 /\ (has t1 FNote = true \/ tr_note t1 = tr_note t /\ tr_unit t1 = tr_unit t)).
  { destruct (r =? _).
    - set (tm := t_istate t (mk_istate (is_phase (tr_istate t)) (is_numActive (tr_istate t) - 1) sts (is_muted (tr_istate t)))) in *.
      assert (KM : stays sqs t tm) by (apply stays_istate; exact EM). destruct (_ =? 0); [|assert (t1 = tm) as -> by congruence; auto].
      destruct (set_phase_stays tm _ _ EI HI E3) as (K1 & K2). split; [exact (stays_trans _ _ _ _ KM K1)|]. exact K2.
    - match type of E3 with Ok ?x = _ => assert (t1 = x) as -> by congruence end. split; [apply stays_istate; exact EM|auto]. }
  destruct K as (K1 & K2). destruct (IH (i + 1) t1 t' ltac:(lia) ltac:(rewrite (proj1 K1); exact EI) ltac:(apply K1; exact HI) E) as (K3 & K4).
  split; [exact (stays_trans _ _ _ _ K1 K3)|]. destruct K4 as [K4|(K4 & K5)]; [left; exact K4|]. destruct K2 as [K2|(K2 & K6)]; [left; apply K3; exact K2|]. right. split; congruence.
Qed.
End Instrument.
