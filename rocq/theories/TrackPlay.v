(** What the ticks of a track do. *)
From Verif Require Import CInt CIntFacts DataModel UnitModel UnitSpec UnitProofs UnitProofs2 UnitProofs5 UnitInv UnitInv2 UnitInv3 UnitCount
  InterpModel InterpProofs SlideIn ToneModel PropertiesTone SequenceModel TrackModel TrackSpec TrackInv TrackProofs TrackProofs2
  TrackProofs3 TrackProofs4 TrackProofs5 TrackVolume.
Ltac Zify.zify_post_hook ::= idtac.

(** Members of the unit an update of volume or duty cycle keeps. *)
Definition tuned (u u' : bkunit) : Prop :=
  un_period u' = un_period u /\ sm_period (un_sample u') = sm_period (un_sample u) /\ ph_count (un_phase u') = ph_count (un_phase u) /\
  un_ctx u' = un_ctx u.
Lemma tuned_refl u : tuned u u.
Proof. repeat split. Qed.
Lemma tuned_trans u v w : tuned u v -> tuned v w -> tuned u w.
Proof. unfold tuned. intros (A1 & A2 & A3 & A4) (B1 & B2 & B3 & B4). repeat split; congruence. Qed.

Lemma period_attr t : BKTrackGetAttr t BK_PERIOD = Ok (0, Some (s32 (un_period (tr_unit t)))).
Proof. reflexivity. Qed.
Lemma sample_period_attr t : BKTrackGetAttr t BK_SAMPLE_PERIOD = (let* v := abs32 (sm_period (un_sample (tr_unit t))) in Ok (0, Some v)).
Proof. reflexivity. Qed.

Lemma plays_tuned t t' note : unit_plays t note -> tuned (tr_unit t) (tr_unit t') ->
  tr_waveform t' = tr_waveform t -> tr_samplePitch t' = tr_samplePitch t -> tr_rate t' = tr_rate t -> unit_plays t' note.
Proof.
  unfold unit_plays. intros H (T1 & T2 & T3 & _) -> -> ->. rewrite period_attr, sample_period_attr in *. rewrite T1, T2, T3. exact H.
Qed.

Lemma duty_tuned u v u' r : BKUnitSetAttr u BK_DUTY_CYCLE v = Ok (u', r) -> tuned u u'.
Proof.
  unfold BKUnitSetAttr. cbv zeta. change (BK_DUTY_CYCLE =? BK_DUTY_CYCLE) with true. cbv iota. destruct (negb _).
  - intros E. match type of E with Ok (?x, _) = _ => assert (u' = x) as -> by congruence end. destruct (_ && _); repeat split.
  - intros E. assert (u' = u) as -> by congruence. apply tuned_refl.
Qed.
Lemma attr_duty_tuned t v t' : unit_attr t BK_DUTY_CYCLE v = Ok t' -> tuned (tr_unit t) (tr_unit t').
Proof.
  unfold unit_attr. intros E. apply bind_inv in E. destruct E as ((u & r) & E & E'). apply duty_tuned in E. assert (t' = t_unit t u) as -> by congruence. exact E.
Qed.
Lemma attr_vol_tuned t k v t' : unit_attr t k v = Ok t' -> k = BK_VOLUME \/ k = BK_VOLUME_0 \/ k = BK_VOLUME_0 + 1 -> tuned (tr_unit t) (tr_unit t').
Proof.
  unfold unit_attr. intros E HK. apply bind_inv in E. destruct E as ((u & r) & E & E'). assert (t' = t_unit t u) as -> by congruence. change (tuned (tr_unit t) u). clear E'.
  destruct HK as [-> |[-> | ->]].
  - rewrite set_all in E. match type of E with Ok (?x, _) = _ => assert (u = x) as -> by congruence end. repeat split.
  - rewrite set_first in E. apply bind_inv in E. destruct E as (l & _ & E). match type of E with Ok (?x, _) = _ => assert (u = x) as -> by congruence end. repeat split.
  - rewrite set_second in E. apply bind_inv in E. destruct E as (l & _ & E). match type of E with Ok (?x, _) = _ => assert (u = x) as -> by congruence end. repeat split.
Qed.
Lemma volume_tuned t t' : BKTrackUpdateUnitVolume t = Ok t' -> tuned (tr_unit t) (tr_unit t').
Proof.
  unfold BKTrackUpdateUnitVolume. intros E. apply bind_inv in E. destruct E as ((v & p) & _ & E). destruct (_ && _).
  - apply bind_inv in E. destruct E as (v0 & _ & E). apply bind_inv in E. destruct E as (v1 & _ & E). apply bind_inv in E. destruct E as (t1 & E1 & E).
    apply (tuned_trans _ (tr_unit t1)); [apply (attr_vol_tuned _ _ _ _ E1)|apply (attr_vol_tuned _ _ _ _ E)]; auto.
  - apply (attr_vol_tuned _ _ _ _ E). auto.
Qed.

Lemma note_plays fuel t : track_ok fuel t -> un_ctx (tr_unit t) <> None ->
  exists u n, BKTrackUpdateUnitNote t = Ok (t_unit t u) /\ track_ok fuel (t_unit t u) /\ track_note t = Ok n /\ unit_plays (t_unit t u) n /\ un_ctx u = un_ctx (tr_unit t).
Proof.
  intros H HC. destruct (note_ok fuel t H) as (u & E & H'). exists u. destruct (note_sum fuel t H) as (n & En & Bn). exists n.
  split; [exact E|]. split; [exact H'|]. split; [exact En|]. unfold BKTrackUpdateUnitNote in E. destruct (un_ctx (tr_unit t)) as [nc|] eqn:EC; [|congruence].
  rewrite En in E. cbn [bind] in E. unfold unit_plays. change (tr_waveform (t_unit t u)) with (tr_waveform t). destruct (Z.eqb_spec (tr_waveform t) BK_SAMPLE) as [EW|NW]; cbn [negb] in E.
  - pose proof (tk_samplePitch _ _ H) as BS. unfold MAX_PITCH in BS. rewrite chk32_ok in E by lia. cbn [bind] in E.
    destruct (C10_log2_total (n + tr_samplePitch t)) as (p & Ep & Bp). rewrite Ep in E. cbn [bind] in E. rewrite s32_id in E by lia.
    unfold unit_attr in E. apply bind_inv in E. destruct E as ((u' & r) & E1 & E). apply unit_inj in E. subst u'.
    change (BKUnitSetAttr (tr_unit t) BK_SAMPLE_PERIOD p) with
      (let* v := abs32 p in
       let v := BKClamp v BK_MIN_SAMPLE_PERIOD BK_MAX_SAMPLE_PERIOD in
       Ok (set_sm (tr_unit t) (s_period (un_sample (tr_unit t)) (if sm_period (un_sample (tr_unit t)) <? 0 then - v else v)), 0)) in E1.
    rewrite abs32_val in E1 by lia. cbn [bind] in E1. cbv zeta in E1.
    rewrite clamp_minmax in E1 by (unfold BK_MIN_SAMPLE_PERIOD, BK_MAX_SAMPLE_PERIOD; lia).
    replace (Z.max BK_MIN_SAMPLE_PERIOD (Z.min BK_MAX_SAMPLE_PERIOD (Z.abs p))) with p in E1 by (unfold BK_MIN_SAMPLE_PERIOD, BK_MAX_SAMPLE_PERIOD; lia).
    match type of E1 with Ok (?x, _) = _ => assert (u = x) as -> by congruence end. split; [|exact EC].
    exists p. split; [exact Ep|]. rewrite sample_period_attr. cbn [tr_unit t_unit un_sample set_sm sm_period s_period].
    rewrite abs32_val by (destruct (_ <? _); lia). cbn [bind]. do 3 f_equal. destruct (_ <? _); lia.
  - destruct (tone_bounds n (tr_rate t)) as (p & Ep & Bp). rewrite Ep in E. cbn [bind] in E. pose proof (tone_not_min _ _ _ Ep) as Np.
    destruct (tk_unit _ _ H) as ((W & _) & C). unfold counted in C. pose proof (wf_count _ W) as WC.
    assert (EM : BKMin (ph_count (un_phase (tr_unit t))) BK_WAVE_MAX_LENGTH = Z.min 64 (ph_count (un_phase (tr_unit t))))
      by (unfold BKMin, BK_WAVE_MAX_LENGTH; destruct (Z.ltb_spec (ph_count (un_phase (tr_unit t))) 64); lia).
    rewrite EM in E. destruct (Z.eqb_spec (Z.min 64 (ph_count (un_phase (tr_unit t)))) 0) as [Z0|_]; [lia|].
    destruct (period_value p (Z.min 64 (ph_count (un_phase (tr_unit t)))) Bp Np ltac:(lia)) as (E1 & E2 & E3). rewrite E1 in E.
    set (q := p / Z.min 64 (ph_count (un_phase (tr_unit t)))) in *.
    unfold unit_attr in E. apply bind_inv in E. destruct E as ((u' & r) & Eu & E). apply unit_inj in E. subst u'.
    change (BKUnitSetAttr (tr_unit t) BK_PERIOD (s32 q)) with (let* v := abs32 (s32 q) in Ok (set_period (tr_unit t) (BKMax v BK_MIN_PERIOD), 0)) in Eu.
    rewrite abs32_val in Eu by (pose proof (s32_range_any q); lia). cbn [bind] in Eu.
    match type of Eu with Ok (?x, _) = _ => assert (u = x) as -> by congruence end. split; [|exact EC].
    exists p. split; [exact Ep|]. intros C2. change (2 <= ph_count (un_phase (tr_unit t))) in C2.
    change (Ok (0, Some (s32 (BKMax (Z.abs (s32 q)) BK_MIN_PERIOD))) = Ok (0, Some q)). rewrite E3 by lia.
    assert (Q : 0 <= q < 2147483648).
    { unfold q. split; [apply Z.div_pos; lia|]. apply Z.div_lt_upper_bound; [lia|]. nia. }
    unfold BKMax, BK_MIN_PERIOD. destruct (Z.gtb_spec (Z.abs q) 0); rewrite s32_id by lia; do 3 f_equal; lia.
Qed.

(** An update of the unit when the note has changed. *)
Definition still (t : track) : Prop := has t FVolume = false /\ has t FNote = false /\ has t FDuty = false.

Lemma track_note_marks t t' : marks t t' -> track_note t' = track_note t.
Proof. intros (u & a & b & c & ->). reflexivity. Qed.

Lemma update_plays fuel t : track_ok fuel t -> exists t', BKTrackUpdateUnit t = Ok t' /\ track_ok fuel t' /\ marks t t' /\ still t' /\
  un_ctx (tr_unit t') = un_ctx (tr_unit t) /\
  (un_ctx (tr_unit t) <> None -> has t FNote = true -> exists n, track_note t = Ok n /\ unit_plays t' n) /\
  (has t FNote = false -> tuned (tr_unit t) (tr_unit t')).
Proof.
  intros H. unfold BKTrackUpdateUnit.
  assert (K1 : exists t1, (if has t FVolume then let* t := BKTrackUpdateUnitVolume t in Ok (put t FVolume false) else Ok t) = Ok t1 /\ track_ok fuel t1 /\
    marks t t1 /\ has t1 FVolume = false /\ has t1 FNote = has t FNote /\ tuned (tr_unit t) (tr_unit t1)).
  { destruct (has t FVolume) eqn:EV; [|exists t; split; [reflexivity|]; split; [exact H|split; [apply marks_refl|split; [exact EV|split; [reflexivity|apply tuned_refl]]]]].
    destruct (volume_ok fuel t H) as (u & E & K). rewrite E. cbn [bind]. apply volume_tuned in E. eexists. split; [reflexivity|]. split; [apply ok_put; [exact K|discriminate]|].
    split; [apply marks_put; [|auto]; apply marks_unit, marks_refl|]. split; [reflexivity|]. split; [reflexivity|exact E]. }
  destruct K1 as (t1 & -> & H1 & M1 & V1 & N1 & T1). cbn [bind].
  assert (K2 : exists t2, (if has t1 FNote then let* t := BKTrackUpdateUnitNote t1 in Ok (put t FNote false) else Ok t1) = Ok t2 /\ track_ok fuel t2 /\
    marks t t2 /\ has t2 FVolume = false /\ has t2 FNote = false /\ un_ctx (tr_unit t2) = un_ctx (tr_unit t) /\
    (un_ctx (tr_unit t) <> None -> has t FNote = true -> exists n, track_note t = Ok n /\ unit_plays t2 n) /\
    (has t FNote = false -> tuned (tr_unit t) (tr_unit t2))).
  { assert (EC : un_ctx (tr_unit t1) = un_ctx (tr_unit t)) by apply T1.
    rewrite N1. destruct (has t FNote) eqn:EN.
    - destruct (un_ctx (tr_unit t)) as [nc|] eqn:EX.
      + destruct (note_plays fuel t1 H1) as (u & n & -> & K & En & PL & EC'); [congruence|]. cbn [bind]. eexists. split; [reflexivity|].
        split; [apply ok_put; [exact K|discriminate]|]. split; [apply marks_put; [|auto]; apply marks_unit, M1|]. split; [exact V1|]. split; [reflexivity|].
        split; [rewrite <- EC; exact EC'|]. split; [|discriminate]. intros _ _. exists n. split; [rewrite <- (track_note_marks _ _ M1); exact En|].
        apply (plays_tuned (t_unit t1 u)); try reflexivity; [exact PL|apply tuned_refl].
      + unfold BKTrackUpdateUnitNote. rewrite EC. cbn [bind]. eexists. split; [reflexivity|]. split; [apply ok_put; [exact H1|discriminate]|].
        split; [apply marks_put; [exact M1|auto]|]. split; [exact V1|]. split; [reflexivity|]. split; [exact EC|]. split; [congruence|discriminate].
    - exists t1. split; [reflexivity|]. split; [exact H1|]. split; [exact M1|]. split; [exact V1|]. split; [exact N1|]. split; [exact EC|]. split; [discriminate|auto]. }
  destruct K2 as (t2 & -> & H2 & M2 & V2 & N2 & C2 & P2 & U2). cbn [bind].
  destruct (has t2 FDuty) eqn:ED.
  2: { exists t2. split; [reflexivity|]. split; [exact H2|]. split; [exact M2|]. split; [unfold still; auto|]. auto. }
  destruct (dutycycle_ok fuel t2 H2) as (u & E & K). rewrite E. cbn [bind].
  assert (TD : tuned (tr_unit t2) u).
  { unfold BKTrackUpdateUnitDutyCycle in E. apply bind_inv in E. destruct E as (d & _ & E). apply attr_duty_tuned in E. exact E. }
  eexists. split; [reflexivity|]. split; [apply ok_put; [exact K|discriminate]|].
  split; [apply marks_put; [|auto]; apply marks_unit, M2|]. split; [unfold still; auto|]. split; [change (un_ctx u = un_ctx (tr_unit t)); rewrite <- C2; apply TD|].
  split.
  - intros A B. destruct (P2 A B) as (n & En & PL). exists n. split; [exact En|]. apply (plays_tuned t2); try reflexivity; [exact PL|exact TD].
  - intros B. apply (tuned_trans _ _ _ (U2 B)). exact TD.
Qed.

(** ** A tick without instrument *)

Definition fires (d : dstate) : bool := ds_counter d =? 0.
Definition div_next (d : dstate) : dstate := mk_dstate (ds_divider d) (if fires d then ds_divider d - 1 else ds_counter d - 1).
Definition arp_next (a : arpstate) : arpstate :=
  mk_arp (if ar_offset a + 1 >=? ar_count a then 0 else ar_offset a + 1) (nth (Z.to_nat (ar_offset a)) (ar_notes a) 0) (ar_count a) (ar_notes a).
(** The arpeggio is played. *)
Definition arp_part (t : track) : track :=
  if has t FArp then t_arpeggio (t_arpDiv t (div_next (tr_arpDiv t))) (if fires (tr_arpDiv t) then arp_next (tr_arpeggio t) else tr_arpeggio t) else t.

(** The effects make a step. *)
Definition steps_if (b : bool) (s s' : slide) : Prop := if b then BKSlideStateStep s = Ok s' else s' = s.
Definition waves_if (b : bool) (d s : slide) (i : interval) (d' s' : slide) (i' : interval) : Prop :=
  if b then effect_interval d s i = Ok (d', s', i') else d' = d /\ s' = s /\ i' = i.
Definition effects_move (t t' : track) : Prop :=
  exists n v p td ts ti vd vs vi,
    t' = t_note (t_volume (t_panning (t_tremoloDelta (t_tremoloSteps (t_tremolo (t_vibratoDelta (t_vibratoSteps (t_vibrato t vi) vs) vd) ti) ts) td) p) v) n /\
    steps_if (has t FPorta) (tr_note t) n /\ steps_if (has t FVolSlide) (tr_volume t) v /\ steps_if (has t FPanSlide) (tr_panning t) p /\
    waves_if (has t FTremolo) (tr_tremoloDelta t) (tr_tremoloSteps t) (tr_tremolo t) td ts ti /\
    waves_if (has t FVibrato) (tr_vibratoDelta t) (tr_vibratoSteps t) (tr_vibrato t) vd vs vi.

Lemma effect_tick_moves fuel t : track_ok fuel t -> exists t', BKTrackEffectTick t = Ok t' /\ track_ok fuel t' /\ effects_move t t'.
Proof.
  intros H. destruct (effect_tick_ok fuel t H) as (t' & E & H' & _). exists t'. split; [exact E|]. split; [exact H'|]. clear H H'.
  unfold BKTrackEffectTick in E.
  apply bind_inv in E. destruct E as (t1 & E1 & E).
  assert (K1 : exists n, t1 = t_note t n /\ steps_if (has t FPorta) (tr_note t) n).
  { unfold steps_if. destruct (has t FPorta).
    - apply bind_inv in E1. destruct E1 as (s & E1 & E2). exists s. split; [congruence|exact E1].
    - exists (tr_note t). split; [assert (t1 = t) as -> by congruence; destruct t|]; reflexivity. }
  clear E1. destruct K1 as (n & -> & S1).
  apply bind_inv in E. destruct E as (t2 & E2 & E).
  assert (K2 : exists v, t2 = t_volume (t_note t n) v /\ steps_if (has t FVolSlide) (tr_volume t) v).
  { unfold steps_if. change (has (t_note t n) FVolSlide) with (has t FVolSlide) in E2. destruct (has t FVolSlide).
    - apply bind_inv in E2. destruct E2 as (s & E1 & E2). exists s. split; [congruence|exact E1].
    - exists (tr_volume t). split; [assert (t2 = t_note t n) as -> by congruence; destruct t|]; reflexivity. }
  clear E2. destruct K2 as (v & -> & S2).
  apply bind_inv in E. destruct E as (t3 & E3 & E).
  assert (K3 : exists p, t3 = t_panning (t_volume (t_note t n) v) p /\ steps_if (has t FPanSlide) (tr_panning t) p).
  { unfold steps_if. change (has (t_volume (t_note t n) v) FPanSlide) with (has t FPanSlide) in E3. destruct (has t FPanSlide).
    - apply bind_inv in E3. destruct E3 as (s & E1 & E2). exists s. split; [congruence|exact E1].
    - exists (tr_panning t). split; [assert (t3 = t_volume (t_note t n) v) as -> by congruence; destruct t|]; reflexivity. }
  clear E3. destruct K3 as (p & -> & S3).
  apply bind_inv in E. destruct E as (t4 & E4 & E). set (t3 := t_panning (t_volume (t_note t n) v) p) in *.
  assert (K4 : exists d s i, t4 = t_tremolo (t_tremoloSteps (t_tremoloDelta t3 d) s) i /\ waves_if (has t FTremolo) (tr_tremoloDelta t) (tr_tremoloSteps t) (tr_tremolo t) d s i).
  { unfold waves_if. change (has t3 FTremolo) with (has t FTremolo) in E4. destruct (has t FTremolo).
    - apply bind_inv in E4. destruct E4 as (((d & s) & i) & E1 & E2). exists d, s, i. split; [congruence|exact E1].
    - exists (tr_tremoloDelta t), (tr_tremoloSteps t), (tr_tremolo t). split; [assert (t4 = t3) as -> by congruence; unfold t3; destruct t|]; repeat split; reflexivity. }
  clear E4. destruct K4 as (td & ts & ti & -> & S4).
  set (t4 := t_tremolo (t_tremoloSteps (t_tremoloDelta t3 td) ts) ti) in *.
  assert (K5 : exists d s i, t' = t_vibrato (t_vibratoSteps (t_vibratoDelta t4 d) s) i /\ waves_if (has t FVibrato) (tr_vibratoDelta t) (tr_vibratoSteps t) (tr_vibrato t) d s i).
  { unfold waves_if. change (has t4 FVibrato) with (has t FVibrato) in E. destruct (has t FVibrato).
    - apply bind_inv in E. destruct E as (((d & s) & i) & E1 & E2). exists d, s, i. split; [congruence|exact E1].
    - exists (tr_vibratoDelta t), (tr_vibratoSteps t), (tr_vibrato t). split; [assert (t' = t4) as -> by congruence; unfold t4, t3; destruct t|]; repeat split; reflexivity. }
  destruct K5 as (vd & vs & vi & -> & S5).
  exists n, v, p, td, ts, ti, vd, vs, vi. split; [reflexivity|]. auto.
Qed.

Lemma effect_flags_marks t : marks t (BKTrackEffectUpdateFlags t) /\
  has (BKTrackEffectUpdateFlags t) FNote = has t FNote || has t FPorta || has t FVibrato /\ tr_unit (BKTrackEffectUpdateFlags t) = tr_unit t /\
  has (BKTrackEffectUpdateFlags t) FVolume = has t FVolume || has t FVolSlide || has t FPanSlide || has t FTremolo.
Proof.
  unfold BKTrackEffectUpdateFlags. cbv zeta.
  assert (K : forall t' k (b : bool), marks t t' -> k = FVolume \/ k = FNote \/ k = FDuty -> marks t (if b then put t' k true else t')) by (intros t' k b ? ?; destruct b; [apply marks_put|]; assumption).
  split; [apply K; [|auto]; apply K; [|auto]; apply K; [|auto]; apply K; [|auto]; apply K; [|auto]; apply marks_refl|].
  destruct t as [? ? ? f]. destruct f as [? ? ? ? ? fv fn ? [|] [|] [|] [|] [|]]; cbn; rewrite ?orb_true_r, ?orb_false_r; repeat split; try reflexivity; destruct fv, fn; reflexivity.
Qed.

Lemma marks_trans t t1 t2 : marks t t1 -> marks t1 t2 -> marks t t2.
Proof. intros (u & a & b & c & ->) (v & d & e & f & ->). exists v, d, e, f. destruct t as [? ? ? g]; destruct g; reflexivity. Qed.

Lemma arp_part_ok fuel t : track_ok fuel t -> exists t1, (if has t FArp then
       let* (d, tick) := BKDividerStateTick (tr_arpDiv t) in
       let t := t_arpDiv t d in
       if tick : bool then BKTrackArpeggioTick t else Ok t
     else Ok t) = Ok t1 /\ track_ok fuel t1 /\ marks (arp_part t) t1 /\ tr_unit t1 = tr_unit t /\
   has t1 FNote = has t FNote || has t FArp && fires (tr_arpDiv t) /\ has t1 FVolume = has t FVolume.
Proof.
  intros H. unfold arp_part. destruct (has t FArp); [|exists t; rewrite orb_false_r; split; [reflexivity|]; split; [exact H|]; split; [apply marks_refl|auto]].
  destruct (divtick_ok _ (tk_arpDiv _ _ H)) as (d & b & -> & D & Eb & Ed). cbn [bind]. cbv zeta.
  change (mk_dstate (ds_divider (tr_arpDiv t)) (if ds_counter (tr_arpDiv t) =? 0 then ds_divider (tr_arpDiv t) - 1 else ds_counter (tr_arpDiv t) - 1)) with (div_next (tr_arpDiv t)) in Ed.
  change (ds_counter (tr_arpDiv t) =? 0) with (fires (tr_arpDiv t)) in Eb. subst b.
  pose proof (ok_arpDiv fuel t d H D) as H1. rewrite Ed in *. destruct (fires (tr_arpDiv t)).
  - destruct (arptick_ok fuel _ H1) as (t2 & E2 & H2 & E3). exists t2. split; [exact E2|]. split; [exact H2|]. rewrite E3.
    split; [apply marks_put; [apply marks_refl|auto]|]. split; [reflexivity|]. split; [destruct (has t FNote); reflexivity|reflexivity].
  - eexists. split; [reflexivity|]. split; [exact H1|]. split.
    + assert (E : t_arpeggio (t_arpDiv t (div_next (tr_arpDiv t))) (tr_arpeggio t) = t_arpDiv t (div_next (tr_arpDiv t))) by (destruct t; reflexivity).
      rewrite E. apply marks_refl.
    + split; [reflexivity|]. rewrite andb_false_r, orb_false_r. auto.
Qed.

Lemma marks_arp t t' : marks t t' -> marks (arp_part t) (arp_part t').
Proof.
  intros (u & a & b & c & ->). unfold arp_part. exists u, a, b, c. destruct t as [? ? ? f]. destruct f as [? [|] ? ? ? ? ? ? ? ? ? ? ?]; reflexivity.
Qed.
Lemma marks_has t t' k : marks t t' -> k <> FVolume -> k <> FNote -> k <> FDuty -> has t' k = has t k.
Proof. intros (u & a & b & c & ->) ? ? ?. destruct t as [? ? ? f]. destruct f, k; try reflexivity; congruence. Qed.
Lemma marks_fields t t' : marks t t' -> tr_effDiv t' = tr_effDiv t /\ tr_arpDiv t' = tr_arpDiv t.
Proof. intros (u & a & b & c & ->). auto. Qed.

(** A tick of a track without instrument: first the arpeggio, then the unit, then the effects. *)
Lemma tick_free fuel t : track_ok fuel t -> has t FInstr = false ->
  exists t1 t', BKTrackTick fuel t = Ok t' /\ track_ok fuel t' /\ track_ok fuel t1 /\
    marks (arp_part t) t1 /\ still t1 /\ un_ctx (tr_unit t1) = un_ctx (tr_unit t) /\
    (un_ctx (tr_unit t) <> None -> has t FNote = true \/ has t FPorta = true \/ has t FVibrato = true \/ has t FArp = true /\ fires (tr_arpDiv t) = true ->
       exists n, track_note (arp_part t) = Ok n /\ unit_plays t1 n) /\
    (has t FNote = false -> has t FPorta = false -> has t FVibrato = false -> has t FArp && fires (tr_arpDiv t) = false -> tuned (tr_unit t) (tr_unit t1)) /\
    (if any_effect t then
       if fires (tr_effDiv t) then effects_move (t_effDiv t1 (div_next (tr_effDiv t))) t' else t' = t_effDiv t1 (div_next (tr_effDiv t))
     else t' = t1).
Proof.
  intros H HI. unfold BKTrackTick. cbv zeta. pose proof (effect_flags_ok fuel t H) as H0. destruct (effect_flags_marks t) as (M0 & N0 & U0 & _).
  set (t0 := BKTrackEffectUpdateFlags t) in *. clearbody t0.
  destruct (arp_part_ok fuel t0 H0) as (ta & Ea & Ha & Ma & Ua & Na & _). cbv zeta in Ea. rewrite Ea. cbn [bind]. clear Ea.
  assert (MA : marks (arp_part t) ta) by (apply (marks_trans _ (arp_part t0)); [apply marks_arp; exact M0|exact Ma]).
  assert (A1 : has (arp_part t) FInstr = has t FInstr) by (unfold arp_part; destruct (has t FArp); reflexivity).
  assert (A2 : forall k, has (arp_part t) k = has t k) by (intros k; unfold arp_part; destruct (has t FArp); reflexivity).
  assert (A3 : tr_effDiv (arp_part t) = tr_effDiv t) by (unfold arp_part; destruct (has t FArp); reflexivity).
  rewrite (marks_has _ _ FInstr MA) by discriminate. rewrite A1, HI. cbn [bind].
  destruct (update_plays fuel ta Ha) as (t1 & -> & H1 & M1 & ST & C1 & P1 & U1). cbn [bind]. exists t1.
  assert (MT : marks (arp_part t) t1) by (apply (marks_trans _ ta); assumption).
  assert (NA : has ta FNote = has t FNote || has t FPorta || has t FVibrato || has t FArp && fires (tr_arpDiv t)).
  { rewrite Na, N0. rewrite (marks_has _ _ FArp M0) by discriminate. destruct (marks_fields _ _ M0) as (_ & ->). reflexivity. }
  assert (EE : any_effect t1 = any_effect t).
  { unfold any_effect. rewrite !(marks_has _ _ _ MT) by discriminate. rewrite !A2. reflexivity. }
  assert (ED : tr_effDiv t1 = tr_effDiv t) by (destruct (marks_fields _ _ MT) as (-> & _); exact A3).
  assert (EC : un_ctx (tr_unit t1) = un_ctx (tr_unit t)) by (rewrite C1, Ua, U0; reflexivity).
  assert (PL : un_ctx (tr_unit t) <> None -> has t FNote = true \/ has t FPorta = true \/ has t FVibrato = true \/ has t FArp = true /\ fires (tr_arpDiv t) = true ->
       exists n, track_note (arp_part t) = Ok n /\ unit_plays t1 n).
  { intros C F. rewrite <- (track_note_marks _ _ MA). apply P1; [rewrite Ua, U0; exact C|]. rewrite NA.
    destruct F as [-> |[-> |[-> |(-> & ->)]]]; rewrite ?orb_true_r; reflexivity. }
  assert (TU : has t FNote = false -> has t FPorta = false -> has t FVibrato = false -> has t FArp && fires (tr_arpDiv t) = false -> tuned (tr_unit t) (tr_unit t1)).
  { intros F1 F2 F3 F4. rewrite <- U0, <- Ua. apply U1. rewrite NA, F1, F2, F3, F4. reflexivity. }
  rewrite EE, ED. destruct (any_effect t) eqn:EA.
  - destruct (divtick_ok _ (tk_effDiv _ _ H)) as (d & b & -> & D & Eb & Ed). cbn [bind]. cbv zeta.
    change (ds_counter (tr_effDiv t) =? 0) with (fires (tr_effDiv t)) in Eb. subst b.
    change (d = div_next (tr_effDiv t)) in Ed. rewrite Ed in *. clear Ed d.
    pose proof (ok_effDiv fuel t1 _ H1 D) as H4. destruct (fires (tr_effDiv t)).
    + destruct (effect_tick_moves fuel _ H4) as (t5 & E5 & H5 & EM). exists t5. repeat (split; [assumption|]). exact EM.
    + eexists. split; [reflexivity|]. repeat (split; [assumption|]). reflexivity.
  - exists t1. split; [reflexivity|]. repeat (split; [assumption|]). reflexivity.
Qed.
