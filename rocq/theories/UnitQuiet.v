(** Pulses of units which play waveforms: in order, and with levels below the volumes. *)
From Verif Require Import CInt CIntFacts DataModel UnitModel UnitSpec UnitProofs UnitProofs2 UnitProofs3 UnitProofs4 MixSpec MixProofs TrackTime UnitShift SafeSpec TrackQuiet.
Ltac Zify.zify_post_hook ::= idtac.

Lemma level_small v p : 0 <= v -> is_frame p -> - v <= level v p <= v.
Proof.
  unfold is_frame, level. intros Hv Hp. split.
  - apply Z.div_le_lower_bound; [lia|]. nia.
  - apply Z.div_le_upper_bound; [lia|]. nia.
Qed.

(** All waveforms take values in 16 bits. *)
Lemma full_range u : unit_safe u -> BK_SQUARE <= un_waveform u <= BK_CUSTOM -> wave_range u (-32768) 32767.
Proof.
  intros (W & T & _) R. specialize (T R). destruct T as [[D T] _]. unfold wave_range.
  assert (C : un_waveform u = BK_SQUARE \/ un_waveform u = BK_SAWTOOTH \/ (un_waveform u = BK_TRIANGLE \/ un_waveform u = BK_NOISE \/ un_waveform u = BK_SINE) \/ un_waveform u = BK_CUSTOM)
    by (unfold BK_SQUARE, BK_TRIANGLE, BK_NOISE, BK_SAWTOOTH, BK_SINE, BK_CUSTOM in *; lia).
  destruct C as [C|[C|[C|C]]].
  - destruct (Z.le_gt_cases (un_duty u) 8); [left|right; left]; repeat split; try assumption; lia.
  - right; right; left. repeat split; try assumption; lia.
  - right; right; right; left. split; [exact C|lia].
  - right; right; right; right; left. split; [left; exact C|]. split; [lia|]. destruct (T C) as (_ & fr & E & _ & F). intros frames base E2.
    assert (frames = fr) as -> by congruence. exact F.
Qed.

Definition Qn (V : Z) (ctx : option Z) (u : bkunit) : Prop := quiet_unit V u /\ un_ctx u = ctx.

Section Run.
Variable V : Z.

Lemma wave_loop_levels fuel : forall u v e t ph wc lp t' ph' wc' lp' l, wave_range u (-32768) 32767 -> 1 <= un_duty u <= 15 -> un_waveform u <> 0 ->
  0 <= v <= V -> 0 <= un_period u -> 0 <= t -> e + un_period u <= 4294967296 -> - V <= lp <= V ->
  wave_loop fuel u v e t ph wc lp = Ok (t', ph', wc', lp', l) ->
  levels (- V) V t lp l /\ - V <= lp' <= V.
Proof.
  induction fuel as [|fuel IH]; intros u v e t ph wc lp t' ph' wc' lp' l R D W Hv P T B L H; cbn [wave_loop] in H.
  - destruct (t <? e) eqn:E; [discriminate|]. inversion H; subst. split; [exact I|exact L].
  - destruct (t <? e) eqn:E; [|inversion H; subst; split; [exact I|exact L]].
    destruct (wave_step u ph wc) as [[[p ph1] wc1]|] eqn:ES; [|discriminate]. cbn [bind] in H.
    destruct (pulse_delta p v lp) as [[de ch]|] eqn:EP; [|discriminate]. cbn [bind] in H.
    rewrite u32_small in H by lia.
    destruct (wave_loop fuel u v e (t + un_period u) ph1 wc1 de) as [[[[[t2 ph2] wc2] lp2] l2]|] eqn:EL; [|discriminate].
    cbn [bind] in H. inversion H; subst. pose proof (wave_step_between _ _ _ _ _ _ _ _ R D W ES) as HP.
    assert (DE : de = level v p /\ ch = de - lp).
    { unfold pulse_delta in EP. destruct (chk32 _) as [m|] eqn:EM; [|discriminate]. cbn [bind] in EP. apply chk32_inv in EM. destruct EM as [-> _].
      destruct (chk32 (_ - lp)) as [c|] eqn:EC; [|discriminate]. cbn [bind] in EP. apply chk32_inv in EC. destruct EC as [-> _].
      unfold BK_VOLUME_SHIFT in EP. rewrite Z.shiftr_div_pow2 in EP by lia. change (2 ^ 15) with 32768 in EP. unfold level. split; congruence. }
    destruct DE as [-> ->]. pose proof (level_small v p ltac:(lia) HP) as LS.
    apply IH in EL; try assumption; try lia. destruct EL as [E1 E2]. split; [|exact E2]. cbn [levels]. split; [lia|]. split; [lia|].
    replace (lp + (level v p - lp)) with (level v p) by lia. eapply levels_earlier; [|exact E1]. lia.
Qed.

Lemma wave_channels_levels n : forall i fuel u oP oW t0 e u' t' l, wave_range u (-32768) 32767 -> 1 <= un_duty u <= 15 -> un_waveform u <> 0 ->
  Forall (fun v => 0 <= v <= V) (un_volume u) -> Forall (fun p => - V <= p <= V) (un_lastPulse u) ->
  0 <= un_period u -> 0 <= un_time u -> e + un_period u <= 4294967296 -> 0 <= i ->
  wave_channels n i fuel u oP oW t0 e = Ok (u', t', l) ->
  length l = n /\ (forall k, levels (- V) V (un_time u) (lastp u (Z.to_nat i + k)) (nth k l [])) /\ Forall (timed (un_time u) e) l /\
  Forall (fun p => - V <= p <= V) (un_lastPulse u') /\ un_volume u' = un_volume u /\ un_sample u' = un_sample u /\ un_waveform u' = un_waveform u /\
  un_sustain u' = un_sustain u /\ un_ctx u' = un_ctx u.
Proof.
  induction n as [|n IH]; intros i fuel u oP oW t0 e u' t' l R D W Fv Fl P T B Hi H; cbn [wave_channels] in H.
  { inversion H; subst. split; [reflexivity|]. split; [intros [|k]; exact I|]. split; [constructor|]. auto 10. }
  destruct (aget (un_volume u) i) as [v|] eqn:EV; [|discriminate]. cbn [bind] in H.
  destruct (v =? 0).
  { destruct (wave_channels n (i + 1) fuel u oP oW t0 e) as [[[ub t2] lb]|] eqn:EL; [|discriminate]. cbn [bind] in H. inversion H; subst.
    apply IH in EL; try assumption; try lia. destruct EL as (H1 & H2 & H3 & H4). split; [cbn; congruence|]. split; [|split; [constructor; [constructor|exact H3]|exact H4]].
    intros [|k]; [exact I|]. cbn [nth]. specialize (H2 k). replace (Z.to_nat i + S k)%nat with (Z.to_nat (i + 1) + k)%nat by lia. exact H2. }
  destruct (aget (un_lastPulse u) i) as [lp|] eqn:EP; [|discriminate]. cbn [bind] in H.
  destruct (run_wave fuel u v e (un_time u) oP oW lp) as [[[[[t1 ph1] wc1] lp1] l1]|] eqn:ER; [|discriminate]. cbn [bind] in H.
  unfold run_wave in ER. cbv zeta in ER. destruct (wave_loop _ _ _ _ _ _ _ _) as [[[[[t1' ph1'] wc1'] lp1'] l1']|] eqn:EW; [|discriminate].
  cbn [bind] in ER. inversion ER; subst.
  assert (BV : 0 <= v <= V) by (apply (frames_between _ _ _ _ _ Fv EV)).
  assert (BL : - V <= lp <= V) by (apply (frames_between _ _ _ _ _ Fl EP)).
  pose proof (wave_loop_times _ _ _ _ _ _ _ _ _ _ _ _ _ P T B EW) as (_ & _ & TM).
  pose proof (wave_loop_levels _ _ _ _ _ _ _ _ _ _ _ _ _ R D W BV P T B BL EW) as [LV LL].
  destruct (aset _ i lp1) as [la1|] eqn:EA; [|discriminate]. cbn [bind] in H.
  match type of H with context [wave_channels n (i + 1) fuel ?v oP oW t1 e] => set (u1 := v) in H end.
  destruct (wave_channels n (i + 1) fuel u1 oP oW t1 e) as [[[ub t2] lb]|] eqn:EL; [|discriminate]. cbn [bind] in H. inversion H; subst.
  pose proof (aget_bounds _ _ _ EP) as BI.
  assert (la1 = upd (un_lastPulse u) (Z.to_nat i) lp1) as ->.
  { change (un_lastPulse (set_ph u (p_wrapCount (p_phase (un_phase u) ph1) (s32 wc1')))) with (un_lastPulse u) in EA. rewrite aset_ok in EA by exact BI. congruence. }
  apply IH in EL; try assumption; try lia.
  - change (un_time u1) with (un_time u) in EL. destruct EL as (H1 & H2 & H3 & H4). split; [cbn; congruence|]. split; [|split; [constructor; [exact TM|exact H3]|exact H4]].
    intros [|k]; cbn [nth].
    + replace (lastp u (Z.to_nat i + 0)) with lp; [exact LV|]. unfold lastp. rewrite Nat.add_0_r. rewrite (aget_nth _ _ 0) in EP by exact BI. congruence.
    + specialize (H2 k). replace (lastp u (Z.to_nat i + S k)) with (lastp u1 (Z.to_nat (i + 1) + k)); [exact H2|].
      unfold lastp, u1. cbn [un_lastPulse set_lastPulse]. rewrite nth_upd_neq by lia. f_equal. lia.
  - change (Forall (fun p => - V <= p <= V) (upd (un_lastPulse u) (Z.to_nat i) lp1)). clear - Fl LL. revert Fl. generalize (un_lastPulse u) (Z.to_nat i). intros l n F.
    revert n. induction F as [|x l H F IH]; intros [|n]; cbn [upd]; constructor; auto.
Qed.

(** A run of the unit. *)
Lemma unit_run_quiet n fuel u e u' l : unit_safe u -> Qn V (Some n) u -> 0 <= e -> e + un_period u <= 4294967296 -> BKUnitRun fuel u e = Ok (u', l) ->
  Qn V (Some n) u' /\ e <= un_time u' /\ length l = Z.to_nat n /\
  (forall k, levels (- V) V (un_time u) (lastp u k) (nth k l [])) /\ Forall (timed (un_time u) e) l.
Proof.
  intros S [(Q1 & Q2 & Q3 & Q4 & Q5) C] E0 B H. unfold BKUnitRun in H. rewrite C in H. cbv zeta in H.
  apply bind_ok in H. destruct H as ([[ub tb] lb] & E1 & H).
  assert (Idle : forall x, Ok (u, x, repeat [] (Z.to_nat n)) = Ok (ub, tb, lb) ->
     Qn V (Some n) ub /\ length lb = Z.to_nat n /\ (forall k, levels (- V) V (un_time u) (lastp u k) (nth k lb [])) /\ Forall (timed (un_time u) e) lb).
  { intros x Hx. assert (ub = u) as -> by congruence. assert (lb = repeat [] (Z.to_nat n)) as -> by congruence.
    split; [split; [repeat (split; [assumption|]); assumption|exact C]|]. split; [apply repeat_length|]. split; [|apply repeat_timed].
    intros k. rewrite nth_repeat_nil. exact I. }
  assert (G : Qn V (Some n) ub /\ length lb = Z.to_nat n /\ (forall k, levels (- V) V (un_time u) (lastp u k) (nth k lb [])) /\ Forall (timed (un_time u) e) lb).
  { destruct (un_period u =? 0); [exact (Idle _ E1)|].
    destruct (_ && _) eqn:R.
    2: { destruct (Z.eqb_spec (un_waveform u) BK_SAMPLE); [contradiction|exact (Idle _ E1)]. }
    unfold BKUnitRunWaveform in E1. destruct (negb _); [exact (Idle _ E1)|].
    assert (R' : BK_SQUARE <= un_waveform u <= BK_CUSTOM) by lia. destruct S as (W & S). pose proof (full_range u (conj W S) R') as FR.
    apply wave_channels_levels in E1; try assumption; try apply W; try lia.
    - destruct E1 as (H1 & H2 & H3 & H4 & H5 & H6 & H7 & H8 & H9). split.
      { split; [|congruence]. unfold quiet_unit. rewrite H5, H6, H7, H8. auto. }
      auto.
    - intros Z0. rewrite Z0 in R'. unfold BK_SQUARE in R'. lia.
    - destruct (wf_volume _ W) as [_ WV]. rewrite Forall_forall in *. intros x X. specialize (WV x X). specialize (Q4 x X). cbn in *. lia. }
  destruct G as (G1 & G2 & G3 & G4). match type of H with Ok (?x, ?y) = _ => assert (u' = x) as -> by congruence; assert (l = y) as -> by congruence end.
  split; [exact G1|]. split; [cbn [un_time set_time]; destruct (Z.ltb_spec tb e); lia|]. auto.
Qed.
End Run.
