(** A run of a unit at another time: all times are shifted. *)
From Verif Require Import CInt CIntFacts UnitModel UnitProofs2 UnitProofs3 TrackModel TrackTime.
Ltac Zify.zify_post_hook ::= idtac.

Definition shl (d : Z) (l : list (Z * Z)) : list (Z * Z) := map (fun p => (fst p + d, snd p)) l.

Lemma u32_small z : 0 <= z < 4294967296 -> u32 z = z.
Proof. intros. apply u32_id. lia. Qed.

(** ** Waveforms *)

Lemma wave_loop_shift d fuel : forall u vl e t ph wc lp, 0 <= d -> 0 <= un_period u -> 0 <= t -> e + d + un_period u <= 4294967296 ->
  wave_loop fuel u vl (e + d) (t + d) ph wc lp =
  rmap (fun '(t', ph', wc', lp', l) => (t' + d, ph', wc', lp', shl d l)) (wave_loop fuel u vl e t ph wc lp).
Proof.
  induction fuel as [|fuel IH]; intros u vl e t ph wc lp D P T B; cbn [wave_loop];
    (replace (t + d <? e + d) with (t <? e) by lia); destruct (t <? e) eqn:E; try reflexivity.
  destruct (wave_step u ph wc) as [[[p ph1] wc1]|]; [|reflexivity]. cbn [bind].
  destruct (pulse_delta p vl lp) as [[de ch]|]; [|reflexivity]. cbn [bind].
  rewrite !u32_small by lia. replace (t + d + un_period u) with (t + un_period u + d) by lia.
  rewrite IH by lia. destruct (wave_loop fuel u vl e _ _ _ _) as [[[[[? ?] ?] ?] ?]|]; reflexivity.
Qed.

Lemma run_wave_shift d fuel u vl e t ph wc lp : 0 <= d -> 0 <= un_period u -> 0 <= t -> e + d + un_period u <= 4294967296 ->
  run_wave fuel u vl (e + d) (t + d) ph wc lp =
  rmap (fun '(t', ph', wc', lp', l) => (t' + d, ph', wc', lp', shl d l)) (run_wave fuel u vl e t ph wc lp).
Proof.
  intros. unfold run_wave. rewrite wave_loop_shift by assumption. destruct (wave_loop _ _ _ e _ _ _ _) as [[[[[? ?] ?] ?] ?]|]; reflexivity.
Qed.

(** Times before the last comparison with the end: not set by any channel, or shifted. *)
Definition times (d a b : Z) : Prop := a = b + d \/ a = 0 /\ b = 0.

Definition agree (d x : Z) (a b : res (bkunit * Z * list (list (Z * Z)))) : Prop :=
  match a, b with
  | Ok (ua, ta, la), Ok (ub, tb, lb) => ua = um x ub /\ times d ta tb /\ la = map (shl d) lb
  | Err e, Err f => e = f
  | _, _ => False
  end.

Lemma wave_channels_shift d n : forall i fuel u oP oW ta tb e, 0 <= d -> 0 <= un_period u -> 0 <= un_time u -> e + d + un_period u <= 4294967296 ->
  times d ta tb ->
  agree d (un_time u + d) (wave_channels n i fuel (um (un_time u + d) u) oP oW ta (e + d)) (wave_channels n i fuel u oP oW tb e).
Proof.
  induction n as [|n IH]; intros i fuel u oP oW ta tb e D P T B R; cbn [wave_channels].
  { cbn. split; [reflexivity|]. split; [exact R|reflexivity]. }
  change (un_volume (um (un_time u + d) u)) with (un_volume u).
  destruct (aget (un_volume u) i) as [v|]; [|reflexivity]. cbn [bind].
  destruct (v =? 0).
  { specialize (IH (i + 1) fuel u oP oW ta tb e D P T B R).
    destruct (wave_channels n (i + 1) fuel (um (un_time u + d) u) oP oW ta (e + d)) as [[[ua t1] la]|];
      destruct (wave_channels n (i + 1) fuel u oP oW tb e) as [[[ub t2] lb]|]; cbn in IH; try contradiction; cbn [bind agree]; [|exact IH].
    destruct IH as (H1 & H2 & H3). split; [exact H1|]. split; [exact H2|]. rewrite H3. reflexivity. }
  change (un_lastPulse (um (un_time u + d) u)) with (un_lastPulse u).
  destruct (aget (un_lastPulse u) i) as [lp|]; [|reflexivity]. cbn [bind].
  change (un_time (um (un_time u + d) u)) with (un_time u + d).
  rewrite (run_wave_same fuel (um (un_time u + d) u) u) by (repeat split; reflexivity).
  rewrite run_wave_shift by assumption.
  destruct (run_wave fuel u v e (un_time u) oP oW lp) as [[[[[t1 ph1] wc1] lp1] l1]|]; [|reflexivity]. cbn [rmap bind].
  change (un_phase (um (un_time u + d) u)) with (un_phase u).
  change (un_lastPulse (set_ph (um (un_time u + d) u) (p_wrapCount (p_phase (un_phase u) ph1) wc1))) with (un_lastPulse u).
  change (un_lastPulse (set_ph u (p_wrapCount (p_phase (un_phase u) ph1) wc1))) with (un_lastPulse u).
  destruct (aset (un_lastPulse u) i lp1) as [la1|]; [|reflexivity]. cbn [bind].
  set (u1 := set_lastPulse (set_ph u (p_wrapCount (p_phase (un_phase u) ph1) wc1)) la1).
  change (set_lastPulse (set_ph (um (un_time u + d) u) (p_wrapCount (p_phase (un_phase u) ph1) wc1)) la1) with (um (un_time u1 + d) u1).
  change (un_time u) with (un_time u1).
  specialize (IH (i + 1) fuel u1 oP oW (t1 + d) t1 e D P T B (or_introl eq_refl)).
  destruct (wave_channels n (i + 1) fuel (um (un_time u1 + d) u1) oP oW (t1 + d) (e + d)) as [[[ua t3] la]|];
    destruct (wave_channels n (i + 1) fuel u1 oP oW t1 e) as [[[ub t2] lb]|]; cbn in IH; try contradiction; cbn [bind agree]; [|exact IH].
  destruct IH as (H1 & H2 & H3). split; [exact H1|]. split; [exact H2|]. rewrite H3. reflexivity.
Qed.

Lemma map_shl_nil d n : map (shl d) (repeat [] n) = repeat [] n.
Proof. induction n; cbn; congruence. Qed.

Lemma run_waveform_shift d fuel u n e : 0 <= d -> 0 <= un_period u -> 0 <= un_time u -> e + d + un_period u <= 4294967296 ->
  agree d (un_time u + d) (BKUnitRunWaveform fuel (um (un_time u + d) u) n (e + d)) (BKUnitRunWaveform fuel u n e).
Proof.
  intros D P T B. unfold BKUnitRunWaveform. change (un_mute (um (un_time u + d) u)) with (un_mute u).
  destruct (negb _).
  - cbn. split; [reflexivity|]. split; [right; auto|]. rewrite map_shl_nil. reflexivity.
  - change (un_phase (um (un_time u + d) u)) with (un_phase u). apply wave_channels_shift; auto. right; auto.
Qed.

(** ** Samples *)

Lemma zip_shift d t v : forall l, zip_pulses (t + d) v (map (shl d) l) = map (shl d) (zip_pulses t v l).
Proof.
  induction v as [|x v IH]; intros [|p l]; cbn; try reflexivity. rewrite IH. reflexivity.
Qed.

Lemma advance_frac u u' : sample_advance u = Ok u' -> 0 <= sm_timeFrac (un_sample u') < 1048576.
Proof.
  unfold sample_advance. cbv zeta. destruct (chk32 _) as [z|]; [|discriminate]. cbn [bind]. intros H.
  assert (u' = set_phase (set_sm u (s_timeFrac (un_sample u) (Z.land z BK_FINT20_FRAC)))
    (u32 (ph_phase (un_phase u) + (Z.shiftr z BK_FINT20_SHIFT - Z.shiftr (sm_timeFrac (un_sample u)) BK_FINT20_SHIFT)))) as -> by congruence.
  cbn. change BK_FINT20_FRAC with (Z.ones 20). rewrite Z.land_ones by lia. apply Z.mod_pos_bound. lia.
Qed.

Lemma reset_frac fuel u u' h : BKUnitResetSample fuel u = Ok (u', h) -> sm_timeFrac (un_sample u') = sm_timeFrac (un_sample u) /\ un_period u' = un_period u.
Proof.
  unfold BKUnitResetSample. cbv zeta. destruct (BKUnitWrapSamplePhase _ _ _ _) as [[ph1 dir]|]; cbn [bind]; [|discriminate].
  match goal with |- context [let '(_, _) := ?e in _] => destruct e as [ph2 mode] end.
  destruct (mode =? 0).
  - intros H. inversion H; subst. split; reflexivity.
  - destruct (abs32 _); [|discriminate]. cbn [bind]. intros H. inversion H; subst. split; reflexivity.
Qed.

Lemma sustain_frac c u : sm_timeFrac (un_sample (sustain_step c u)) = sm_timeFrac (un_sample u) /\ un_period (sustain_step c u) = un_period u.
Proof.
  unfold sustain_step. cbv zeta. destruct c; [|split; reflexivity].
  destruct (_ >? 0); [destruct (_ >=? _)|destruct (_ <? _)]; split; reflexivity.
Qed.

Lemma sample_loop_shift d n c e : 0 <= d -> e + d + 1048576 < 2147483648 -> forall fuel u t,
  0 <= sm_timeFrac (un_sample u) < 1048576 -> 0 <= t -> t + d < 2147483648 ->
  sample_loop fuel u n c (t + d) (e + d) =
  rmap (fun '(u', t', l) => (u', t' + d, map (shl d) l)) (sample_loop fuel u n c t e).
Proof.
  intros D B. induction fuel as [|fuel IH]; intros u t F T T2; cbn [sample_loop]; rewrite (u32_small (t + d)), (u32_small t) by lia;
    (replace (t + d <? e + d) with (t <? e) by lia); destruct (t <? e) eqn:E;
    try (cbn [rmap]; rewrite map_shl_nil; reflexivity); try reflexivity.
  destruct (sample_channels _ _ _ _) as [[last v]|]; [|reflexivity]. cbn [bind].
  rewrite (chk32_ok (t + d + _)), (chk32_ok (t + _)) by lia. cbn [bind].
  destruct (sample_advance (set_lastPulse u last)) as [v1|] eqn:EA; [|reflexivity]. cbn [bind]. apply advance_frac in EA.
  assert (HZ : u32 (t + d + sm_timeFrac (un_sample u)) = u32 (t + sm_timeFrac (un_sample u)) + d) by (rewrite !u32_small; lia).
  rewrite HZ.
  set (r := if _ || _ then _ else _).
  assert (HR : match r with Ok (w, _) => 0 <= sm_timeFrac (un_sample w) < 1048576 | Err _ => True end).
  { unfold r. destruct (_ || _); [|exact EA]. destruct (BKUnitResetSample _ v1) as [[w h]|] eqn:ER; [|exact I].
    apply reset_frac in ER. destruct ER as [-> _]. exact EA. }
  destruct r as [[w h]|]; [|reflexivity]. cbn [bind]. destruct h.
  { cbn [rmap]. rewrite <- map_shl_nil with (d := d) at 1. rewrite zip_shift. reflexivity. }
  rewrite (chk32_ok (t + d + _)), (chk32_ok (t + _)) by (unfold BK_FINT20_UNIT; lia). cbn [bind].
  replace (t + d + BK_FINT20_UNIT) with (t + BK_FINT20_UNIT + d) by lia.
  rewrite IH by (try (destruct (sustain_frac c w) as [-> _]); unfold BK_FINT20_UNIT in *; lia).
  destruct (sample_loop fuel _ _ _ _ e) as [[[u' t'] l]|]; [|reflexivity]. cbn [rmap bind]. rewrite zip_shift. reflexivity.
Qed.

Lemma sample_loop_none fuel u n c time e : e <= u32 time -> sample_loop fuel u n c time e = Ok (u, time, repeat [] (Z.to_nat n)).
Proof. intros H. destruct fuel; cbn [sample_loop]; (replace (u32 time <? e) with false by lia); reflexivity. Qed.

Lemma u32_s32 z : 0 <= z < 4294967296 -> u32 (s32 z) = z.
Proof.
  intros. unfold u32, s32. Z.to_euclidean_division_equations. lia.
Qed.

(** Times of a run of waveforms. *)
Definition timed (lo hi : Z) (l : list (Z * Z)) : Prop := Forall (fun p => lo <= fst p < hi) l.

Lemma wave_loop_times fuel : forall u vl e t ph wc lp t' ph' wc' lp' l, 0 <= un_period u -> 0 <= t -> e + un_period u <= 4294967296 ->
  wave_loop fuel u vl e t ph wc lp = Ok (t', ph', wc', lp', l) ->
  0 <= t' /\ (t' <= t \/ t' < e + un_period u) /\ timed t e l.
Proof.
  induction fuel as [|fuel IH]; intros u vl e t ph wc lp t' ph' wc' lp' l P T B H; cbn [wave_loop] in H.
  - destruct (t <? e) eqn:E; [discriminate|]. inversion H; subst. split; [lia|]. split; [lia|constructor].
  - destruct (t <? e) eqn:E; [|inversion H; subst; split; [lia|]; split; [lia|constructor]].
    destruct (wave_step u ph wc) as [[[p ph1] wc1]|]; [|discriminate]. cbn [bind] in H.
    destruct (pulse_delta p vl lp) as [[de ch]|]; [|discriminate]. cbn [bind] in H.
    rewrite u32_small in H by lia.
    destruct (wave_loop fuel u vl e (t + un_period u) ph1 wc1 de) as [[[[[t2 ph2] wc2] lp2] l2]|] eqn:EL; [|discriminate].
    cbn [bind] in H. inversion H; subst. apply IH in EL; [|assumption|lia|assumption]. destruct EL as (H1 & H2 & H3).
    split; [lia|]. split; [lia|]. constructor; [cbn; lia|]. eapply Forall_impl; [|exact H3]. cbn. intros; lia.
Qed.

Lemma wave_channels_times n : forall i fuel u oP oW t0 e u' t' l, 0 <= un_period u -> 0 <= un_time u -> e + un_period u <= 4294967296 ->
  wave_channels n i fuel u oP oW t0 e = Ok (u', t', l) -> 0 <= t0 ->
  0 <= t' /\ (t' = t0 \/ t' <= un_time u \/ t' < e + un_period u) /\ Forall (timed (un_time u) e) l /\
  un_period u' = un_period u /\ un_sample u' = un_sample u.
Proof.
  induction n as [|n IH]; intros i fuel u oP oW t0 e u' t' l P T B H T0; cbn [wave_channels] in H.
  { inversion H; subst. split; [lia|]. split; [auto|]. split; [constructor|auto]. }
  destruct (aget (un_volume u) i) as [v|]; [|discriminate]. cbn [bind] in H.
  destruct (v =? 0).
  { destruct (wave_channels n (i + 1) fuel u oP oW t0 e) as [[[ub t2] lb]|] eqn:EL; [|discriminate]. cbn [bind] in H. inversion H; subst.
    apply IH in EL; try assumption. destruct EL as (H1 & H2 & H3 & H4). split; [exact H1|]. split; [exact H2|]. split; [|exact H4].
    constructor; [constructor|exact H3]. }
  destruct (aget (un_lastPulse u) i) as [lp|]; [|discriminate]. cbn [bind] in H.
  destruct (run_wave fuel u v e (un_time u) oP oW lp) as [[[[[t1 ph1] wc1] lp1] l1]|] eqn:ER; [|discriminate]. cbn [bind] in H.
  unfold run_wave in ER. cbv zeta in ER. destruct (wave_loop _ _ _ _ _ _ _ _) as [[[[[t1' ph1'] wc1'] lp1'] l1']|] eqn:EW; [|discriminate].
  cbn [bind] in ER. inversion ER; subst. apply wave_loop_times in EW; try assumption. destruct EW as (W1 & W2 & W3).
  destruct (aset _ i lp1) as [la1|]; [|discriminate]. cbn [bind] in H.
  match type of H with context [wave_channels n (i + 1) fuel ?v oP oW t1 e] => set (u1 := v) in H end.
  destruct (wave_channels n (i + 1) fuel u1 oP oW t1 e) as [[[ub t2] lb]|] eqn:EL; [|discriminate]. cbn [bind] in H. inversion H; subst.
  apply IH in EL; try assumption. change (un_time u1) with (un_time u) in EL. change (un_period u1) with (un_period u) in EL.
  change (un_sample u1) with (un_sample u) in EL.
  destruct EL as (H1 & H2 & H3 & H4). split; [exact H1|]. split; [lia|]. split; [|exact H4]. constructor; [exact W3|exact H3].
Qed.

Lemma zip_timed lo hi t v : lo <= t < hi -> forall l, Forall (timed lo hi) l -> Forall (timed lo hi) (zip_pulses t v l).
Proof.
  intros B. induction v as [|x v IH]; intros [|p l] H; cbn; auto. inversion H; subst. constructor; [|apply IH; assumption].
  constructor; [exact B|assumption].
Qed.

Lemma repeat_timed lo hi n : Forall (timed lo hi) (repeat [] n).
Proof. induction n; cbn; constructor; [constructor|assumption]. Qed.

Lemma timed_weak lo hi lo' hi' l : lo' <= lo -> hi <= hi' -> timed lo hi l -> timed lo' hi' l.
Proof. intros. eapply Forall_impl; [|eassumption]. cbn. intros; lia. Qed.

Lemma sample_loop_times n c e : e + 1048576 < 2147483648 -> forall fuel u t u' t' l, 0 <= t < e ->
  0 <= sm_timeFrac (un_sample u) < 1048576 ->
  sample_loop fuel u n c t e = Ok (u', t', l) ->
  0 <= t' < e + 1048576 /\ Forall (timed t (e + 1048576)) l /\
  un_period u' = un_period u /\ 0 <= sm_timeFrac (un_sample u') < 1048576.
Proof.
  intros B. induction fuel as [|fuel IH]; intros u t u' t' l T F EL; cbn [sample_loop] in EL; rewrite u32_small in EL by lia;
    (replace (t <? e) with true in EL by lia); [discriminate|].
  destruct (sample_channels _ _ _ _) as [[last v]|]; [|discriminate]. cbn [bind] in EL.
  destruct (chk32 (t + sm_timeFrac _)) as [z|] eqn:EC; [|discriminate]. cbn [bind] in EL. apply chk32_inv in EC. destruct EC as [-> EC].
  destruct (sample_advance _) as [v1|] eqn:EA; [|discriminate]. cbn [bind] in EL.
  assert (PV : un_period v1 = un_period u).
  { clear - EA. unfold sample_advance in EA. cbv zeta in EA. destruct (chk32 _); [|discriminate]. cbn [bind] in EA. apply (f_equal (fun r => match r with Ok w => un_period w | Err _ => 0 end)) in EA. symmetry. exact EA. }
  apply advance_frac in EA.
  set (r := if _ || _ then _ else _) in EL.
  assert (HR : match r with Ok (w, _) => 0 <= sm_timeFrac (un_sample w) < 1048576 /\ un_period w = un_period u | Err _ => True end).
  { unfold r. destruct (_ || _); [|split; assumption]. destruct (BKUnitResetSample _ v1) as [[w h]|] eqn:ER; [|exact I].
    apply reset_frac in ER. destruct ER as [-> ->]. split; assumption. }
  destruct r as [[w h]|]; [|discriminate]. cbn [bind] in EL. destruct HR as [HR HP]. rewrite u32_small in EL by lia.
  destruct h.
  { inversion EL; subst. split; [lia|]. split; [|split; assumption]. apply zip_timed; [lia|]. apply repeat_timed. }
  destruct (chk32 (t + BK_FINT20_UNIT)) as [nx|] eqn:EN; [|discriminate]. cbn [bind] in EL.
  apply chk32_inv in EN. destruct EN as [-> EN].
  destruct (sample_loop fuel _ _ _ _ _) as [[[u2 t2] l2]|] eqn:EL2; [|discriminate]. cbn [bind] in EL. inversion EL; subst. clear EL.
  unfold BK_FINT20_UNIT in *. destruct (sustain_frac c w) as [S1 S2].
  destruct (Z.lt_ge_cases (t + 1048576) e) as [C2|C2].
  - apply IH in EL2; [|lia|rewrite S1; exact HR]. destruct EL2 as (H1 & H2 & H3 & H4). split; [exact H1|]. split.
    { apply zip_timed; [lia|]. eapply Forall_impl; [|exact H2]. intros a Ha. eapply timed_weak; [| |exact Ha]; lia. }
    split; [congruence|exact H4].
  - rewrite sample_loop_none in EL2 by (rewrite u32_small; lia). inversion EL2; subst. split; [lia|]. split.
    { apply zip_timed; [lia|]. apply repeat_timed. }
    rewrite S1, S2. split; assumption.
Qed.

Lemma run_sample_shift d fuel u n e : 0 <= d -> 0 <= sm_timeFrac (un_sample u) < 1048576 -> 0 <= un_time u -> un_time u + d < 4294967296 ->
  0 <= e -> e + d + 1048576 < 2147483648 ->
  agree d (un_time u + d) (BKUnitRunSample fuel (um (un_time u + d) u) n (e + d)) (BKUnitRunSample fuel u n e).
Proof.
  intros D F T T2 E B. unfold BKUnitRunSample. change (un_mute (um (un_time u + d) u)) with (un_mute u).
  change (un_sample (um (un_time u + d) u)) with (un_sample u).
  assert (QUIET : agree d (un_time u + d) (Ok (um (un_time u + d) u, e + d, repeat [] (Z.to_nat n))) (Ok (u, e, repeat [] (Z.to_nat n)))).
  { cbn. split; [reflexivity|]. split; [left; reflexivity|]. rewrite map_shl_nil. reflexivity. }
  destruct (negb _); [exact QUIET|].
  destruct (chk32 _) as [z|]; [|reflexivity]. cbn [bind]. destruct (abs32 z) as [len|]; [|reflexivity]. cbn [bind].
  destruct (len <? 2); [exact QUIET|].
  change (un_time (um (un_time u + d) u)) with (un_time u + d). change (un_sustain (um (un_time u + d) u)) with (un_sustain u).
  change (un_release (um (un_time u + d) u)) with (un_release u). unfold um. rewrite sample_loop_time.
  destruct (Z.le_gt_cases e (un_time u)) as [C|C].
  { rewrite !sample_loop_none by (rewrite u32_s32; lia). cbn [bind agree]. rewrite !u32_s32 by lia.
    split; [reflexivity|]. split; [left; reflexivity|]. rewrite map_shl_nil. reflexivity. }
  rewrite (s32_id (un_time u + d)), (s32_id (un_time u)) by lia.
  pose proof (sample_loop_shift d n (un_sustain u && negb (un_release u)) e D B fuel u (un_time u) F T ltac:(lia)) as K.
  rewrite K. destruct (sample_loop fuel u n _ (un_time u) e) as [[[u' t'] l]|] eqn:EL; [|reflexivity]. cbn [rmap bind agree].
  split; [reflexivity|]. split; [|reflexivity]. left.
  assert (R : 0 <= t' < e + 1048576).
  { apply sample_loop_times in EL; try lia. }
  rewrite !u32_small; lia.
Qed.

(** ** Runs of units *)

Lemma run_shift d fuel u e : Pu u -> 0 <= d -> 0 <= un_time u -> un_time u + d < 4294967296 -> 0 <= e -> e + d + 1048576 < 2147483648 ->
  BKUnitRun fuel (um (un_time u + d) u) (e + d) =
  rmap (fun '(u', l) => (um (un_time u' + d) u', map (shl d) l)) (BKUnitRun fuel u e).
Proof.
  intros [P F] D T T2 E B. unfold BKUnitRun. change (un_ctx (um (un_time u + d) u)) with (un_ctx u).
  destruct (un_ctx u) as [n|]; [|reflexivity].
  change (un_waveform (um (un_time u + d) u)) with (un_waveform u).
  set (A := if un_period (um (un_time u + d) u) =? 0 then _ else _). set (B' := if un_period u =? 0 then _ else _).
  assert (G : agree d (un_time u + d) A B').
  { assert (Q : agree d (un_time u + d) (Ok (um (un_time u + d) u, un_time u + d, repeat [] (Z.to_nat n))) (Ok (u, un_time u, repeat [] (Z.to_nat n)))).
    { cbn. split; [reflexivity|]. split; [left; reflexivity|]. rewrite map_shl_nil. reflexivity. }
    unfold A, B'. change (un_period (um (un_time u + d) u)) with (un_period u). destruct (un_period u =? 0); [exact Q|].
    destruct ((BK_SQUARE <=? un_waveform u) && (un_waveform u <=? BK_CUSTOM)); [apply run_waveform_shift; lia|]. destruct (un_waveform u =? BK_SAMPLE); [apply run_sample_shift; auto; lia|exact Q]. }
  destruct A as [[[ua ta] la]|]; destruct B' as [[[ub tb] lb]|]; cbn [agree] in G; try contradiction; [|subst; reflexivity].
  destruct G as (-> & G & ->). cbn [bind rmap].
  f_equal. f_equal. unfold um. cbn [un_time set_time]. unfold set_time. cbn. f_equal.
  destruct G as [->|[-> ->]].
  - destruct (tb + d <? e + d) eqn:?, (tb <? e) eqn:?; lia.
  - destruct (0 <? e + d) eqn:?, (0 <? e) eqn:?; lia.
Qed.

Lemma run_times fuel u e u' l : Pu u -> 0 <= un_time u < 4294967296 -> 0 <= e -> e + 1048576 < 2147483648 ->
  BKUnitRun fuel u e = Ok (u', l) ->
  e <= un_time u' /\ (un_time u' <= un_time u \/ un_time u' <= e + 2147483648) /\ Pu u' /\ Forall (timed (un_time u) (e + 1048576)) l.
Proof.
  intros [P F] T E B H. unfold BKUnitRun in H. destruct (un_ctx u) as [n|]; [|discriminate]. cbv zeta in H.
  apply bind_ok in H. destruct H as ([[ub tb] lb] & E1 & H).
  assert (G : 0 <= tb /\ (tb <= un_time u \/ tb <= e + 2147483648) /\ Forall (timed (un_time u) (e + 1048576)) lb /\ Pu ub).
  { destruct (un_period u =? 0).
    { inversion E1; subst. split; [lia|]. split; [lia|]. split; [apply repeat_timed|split; assumption]. }
    destruct (_ && _).
    { unfold BKUnitRunWaveform in E1. destruct (negb _).
      { inversion E1; subst. split; [lia|]. split; [lia|]. split; [apply repeat_timed|split; assumption]. }
      apply wave_channels_times in E1; try lia. destruct E1 as (H1 & H2 & H3 & H4 & H5). split; [lia|]. split; [lia|]. split.
      { eapply Forall_impl; [|exact H3]. intros a Ha. eapply timed_weak; [| |exact Ha]; lia. }
      unfold Pu. rewrite H4, H5. split; assumption. }
    destruct (_ =? _).
    { unfold BKUnitRunSample in E1. destruct (negb _).
      { inversion E1; subst. split; [lia|]. split; [lia|]. split; [apply repeat_timed|split; assumption]. }
      apply bind_ok in E1. destruct E1 as (z & _ & E1). apply bind_ok in E1. destruct E1 as (len & _ & E1). destruct (len <? 2).
      { inversion E1; subst. split; [lia|]. split; [lia|]. split; [apply repeat_timed|split; assumption]. }
      destruct (sample_loop _ _ _ _ _ _) as [[[u2 t2] l2]|] eqn:EL; [|discriminate]. cbn [bind] in E1. inversion E1; subst. clear E1.
      destruct (Z.le_gt_cases e (un_time u)) as [C|C].
      - rewrite sample_loop_none in EL by (rewrite u32_s32; lia). inversion EL; subst. rewrite u32_s32 by lia.
        split; [lia|]. split; [lia|]. split; [apply repeat_timed|split; assumption].
      - rewrite s32_id in EL by lia. apply sample_loop_times in EL; try lia. destruct EL as (H1 & H2 & H3 & H4).
        rewrite u32_small by lia. split; [lia|]. split; [lia|]. split; [exact H2|]. unfold Pu. rewrite H3. split; assumption. }
    inversion E1; subst. split; [lia|]. split; [lia|]. split; [apply repeat_timed|split; assumption]. }
  destruct G as (H1 & H2 & H3 & H4). inversion H; subst. cbn [un_time set_time].
  destruct (tb <? e) eqn:C; (split; [lia|]; split; [lia|]; split; [exact H4|exact H3]).
Qed.
