(** Proofs about units: a run in two parts is a run. *)
From Verif Require Import CInt CIntFacts DataModel UnitModel UnitSpec UnitProofs UnitProofs2.
Ltac Zify.zify_post_hook ::= idtac.

(** ** Lists of pulses *)

Lemma chan_deltas_app v r1 : forall last r2,
  chan_deltas v last (r1 ++ r2) = chan_deltas v last r1 ++ chan_deltas v (last_level v last r1) r2.
Proof.
  induction r1 as [|[t p] r1 IH]; intros last r2; [reflexivity|].
  cbn [app chan_deltas]. rewrite IH. reflexivity.
Qed.

Lemma last_level_app v r1 last r2 : last_level v last (r1 ++ r2) = last_level v (last_level v last r1) r2.
Proof. unfold last_level. apply fold_left_app. Qed.

Lemma zip_app_nil_l n : forall l, length l = n -> zip_app (repeat [] n) l = l.
Proof. induction n as [|n IH]; intros [|x l] H; cbn in *; try discriminate; [reflexivity|]. rewrite IH by lia. reflexivity. Qed.

Lemma zip_app_nil_r n : forall l, length l = n -> zip_app l (repeat [] n) = l.
Proof.
  induction n as [|n IH]; intros [|x l] H; cbn in *; try discriminate; [reflexivity|].
  rewrite IH by lia. rewrite app_nil_r. reflexivity.
Qed.

Lemma zip_app_length a : forall b, length a = length b -> length (zip_app a b) = length a.
Proof. induction a as [|x a IH]; intros [|y b] H; cbn in *; try discriminate; [reflexivity|]. rewrite IH by lia. reflexivity. Qed.

Lemma zip_app_nth a : forall b k, length a = length b ->
  nth k (zip_app a b) [] = nth k a [] ++ nth k b [].
Proof.
  induction a as [|x a IH]; intros [|y b] [|k] H; cbn in *; try discriminate; auto.
Qed.

Lemma zip_pulses_length t d : forall l, length (zip_pulses t d l) = length l.
Proof. induction d as [|v d IH]; intros [|p l]; cbn; auto. Qed.

Lemma zip_pulses_app t d : forall l1 l2, zip_app (zip_pulses t d l1) l2 = zip_pulses t d (zip_app l1 l2).
Proof.
  induction d as [|v d IH]; intros [|p l1] [|q l2]; cbn [zip_pulses zip_app]; auto.
  rewrite IH. reflexivity.
Qed.

(** ** Waveforms *)

Lemma wave_raw_end fuel : forall u endTime time phase wc t ph wc' raw,
  wave_raw fuel u endTime time phase wc = Ok (t, ph, wc', raw) -> endTime <= t.
Proof.
  induction fuel as [|fuel IH]; intros *; cbn [wave_raw]; destruct (time <? endTime) eqn:Et; intros H.
  - discriminate.
  - injection H as <- <- <- <-. lia.
  - apply bind_ok in H. destruct H as ([[p ph1] wc1] & E1 & H).
    apply bind_ok in H. destruct H as ([[[t2 ph2] wc2] raw2] & E3 & H).
    injection H as <- <- <- <-. eapply IH. exact E3.
  - injection H as <- <- <- <-. lia.
Qed.

Lemma wave_raw_split f1 : forall f2 u t1 t2 time phase wc ta pha wca la tb phb wcb lb,
  t1 <= t2 ->
  wave_raw f1 u t1 time phase wc = Ok (ta, pha, wca, la) ->
  wave_raw f2 u t2 ta pha wca = Ok (tb, phb, wcb, lb) ->
  wave_raw (f1 + f2) u t2 time phase wc = Ok (tb, phb, wcb, la ++ lb).
Proof.
  induction f1 as [|f1 IH]; intros * Ht H1 H2.
  - cbn [wave_raw] in H1. destruct (time <? t1); [discriminate|].
    injection H1 as <- <- <- <-. exact H2.
  - cbn [Nat.add wave_raw] in H1 |- *. destruct (time <? t1) eqn:Et.
    + replace (time <? t2) with true by lia.
      apply bind_ok in H1. destruct H1 as ([[p ph1] wc1] & E1 & H1). rewrite E1. cbn [bind].
      apply bind_ok in H1. destruct H1 as ([[[t3 ph3] wc3] l3] & E3 & H1).
      injection H1 as <- <- <- <-.
      rewrite (IH _ _ _ _ _ _ _ _ _ _ _ _ _ _ _ Ht E3 H2). reflexivity.
    + injection H1 as <- <- <- <-.
      pose proof (wave_raw_fuel _ _ _ _ _ _ _ H2 (S f1)) as H3.
      replace (f2 + S f1)%nat with (S (f1 + f2)) in H3 by lia. exact H3.
Qed.

Lemma run_raw_split f1 f2 u t1 t2 time phase wc ta pha wca la tb phb wcb lb :
  0 <= ph_wrap (un_phase u) < 4294967296 -> 0 <= phase ->
  t1 <= t2 ->
  run_raw f1 u t1 time phase wc = Ok (ta, pha, wca, la) ->
  run_raw f2 u t2 ta pha wca = Ok (tb, phb, wcb, lb) ->
  run_raw (f1 + f2) u t2 time phase wc = Ok (tb, phb, wcb, la ++ lb).
Proof.
  intros Hw Hph Ht H1 H2. unfold run_raw in *.
  apply bind_ok in H1. destruct H1 as ([[[t3 ph3] wc3] l3] & E1 & H1).
  injection H1 as <- <- <- <-.
  apply bind_ok in H2. destruct H2 as ([[[t4 ph4] wc4] l4] & E2 & H2).
  injection H2 as <- <- <- <-.
  pose proof (u32_range wc) as Hu.
  pose proof (wave_raw_ranges _ _ _ _ _ _ _ _ _ _ Hw Hu E1) as [Hwc3 Hn].
  rewrite u32_s32 in E2 by exact Hwc3.
  assert (Es : start_phase u ph3 = ph3).
  { unfold start_phase. destruct (un_waveform u =? BK_NOISE) eqn:En; [|reflexivity].
    cbn [andb]. destruct (ph3 =? 0) eqn:Ez; [|reflexivity]. exfalso.
    assert (Hs : 0 <= start_phase u phase /\ start_phase u phase <> 0).
    { unfold start_phase. rewrite En. cbn [andb]. destruct (phase =? 0) eqn:Ep; split; lia. }
    destruct (Hn ltac:(lia) (proj1 Hs) (proj2 Hs)). lia. }
  rewrite Es in E2.
  rewrite (wave_raw_split _ _ _ _ _ _ _ _ _ _ _ _ _ _ _ _ Ht E1 E2). reflexivity.
Qed.

Lemma run_raw_end fuel u endTime time phase wc t ph wc' raw :
  run_raw fuel u endTime time phase wc = Ok (t, ph, wc', raw) -> endTime <= t.
Proof.
  unfold run_raw. intros H. apply bind_ok in H. destruct H as ([[[t3 ph3] wc3] l3] & E1 & H1).
  injection H1 as <- <- <- <-. eapply wave_raw_end. exact E1.
Qed.

Lemma channels_split n f1 f2 u t1 t2 u1 ta l1 u2 tb l2 :
  0 <= ph_wrap (un_phase u) < 4294967296 -> 0 <= ph_phase (un_phase u) ->
  0 <= t1 <= t2 ->
  wave_channels n 0 f1 u (ph_phase (un_phase u)) (ph_wrapCount (un_phase u)) 0 t1 = Ok (u1, ta, l1) ->
  let v := set_time u1 (if ta <? t1 then t1 else ta) in
  wave_channels n 0 f2 v (ph_phase (un_phase v)) (ph_wrapCount (un_phase v)) 0 t2 = Ok (u2, tb, l2) ->
  exists u3 t3,
  wave_channels n 0 (f1 + f2) u (ph_phase (un_phase u)) (ph_wrapCount (un_phase u)) 0 t2 =
    Ok (u3, t3, zip_app l1 l2) /\
  set_time u3 (if t3 <? t2 then t2 else t3) = set_time u2 (if tb <? t2 then t2 else tb).
Proof.
  intros Hw Hph Ht E1 v E2. change 0 with (Z.of_nat 0) in E1 at 1. change 0 with (Z.of_nat 0) in E2 at 1.
  pose proof (wave_channels_each _ _ _ _ _ _ _ _ _ E1) as A1.
  pose proof (wave_channels_each _ _ _ _ _ _ _ _ _ E2) as A2.
  pose proof (wave_channels_char _ _ _ _ _ _ _ _ _ _ _ E1) as (m1 & C1 & L1 & LL1 & P1 & N1).
  pose proof (wave_channels_char _ _ _ _ _ _ _ _ _ _ _ E2) as (m2 & C2 & L2 & LL2 & P2 & N2).
  cbv zeta in *. cbn [Nat.add] in *.
  destruct m1 as [[[[ta' ph1] wc1] raw1]|].
  - (* audible *)
    destruct C1 as (R1 & (k & Hk & Hkv) & Eta & Hu1).
    assert (Eta' : ta <? t1 = false).
    { apply run_raw_end in R1. lia. }
    assert (Hvol : forall k, vol v k = vol u k).
    { intros j. unfold v. rewrite Eta', Hu1. reflexivity. }
    assert (Hs : same_wave v u).
    { unfold v. rewrite Hu1. repeat split. }
    assert (Hvt : un_time v = ta) by (unfold v; rewrite Eta'; reflexivity).
    assert (Hvp : ph_phase (un_phase v) = ph1) by (unfold v; rewrite Hu1; reflexivity).
    assert (Hvw : ph_wrapCount (un_phase v) = wc1) by (unfold v; rewrite Hu1; reflexivity).
    assert (Hvl : forall k, lastp v k = lastp u1 k) by reflexivity.
    destruct m2 as [[[[tb' ph2] wc2] raw2]|].
    2:{ exfalso. destruct C2 as (C2 & _). specialize (C2 k Hk). rewrite Hvol in C2. contradiction. }
    destruct C2 as (R2 & _ & Etb & Hu2).
    rewrite (run_raw_same _ v u) in R2 by exact Hs. rewrite Hvt, Hvp, Hvw in R2. subst ta'.
    assert (RS : run_raw (f1 + f2) u t2 (un_time u) (ph_phase (un_phase u)) (ph_wrapCount (un_phase u)) =
                 Ok (tb', ph2, wc2, raw1 ++ raw2)).
    { eapply run_raw_split; try eassumption. lia. }
    destruct (wave_channels_ok n 0 (f1 + f2) u (ph_phase (un_phase u)) (ph_wrapCount (un_phase u)) 0 t2)
      as ([[u3 t3] l3] & E3).
    { intros j Hj. destruct (A1 j Hj) as [B1 B2]. destruct (A2 j Hj) as [D1 D2]. split; [exact B1|].
      intros Hv. destruct (B2 Hv) as (B3 & [[[[x1 x2] x3] x4] x5] & B4).
      rewrite Hvol in D2. destruct (D2 Hv) as (D3 & [[[[y1 y2] y3] y4] y5] & D4).
      split; [exact B3|].
      pose proof (run_wave_raw _ _ _ _ _ _ _ _ _ _ _ _ _ B4) as (raw & Q1 & Q2 & Q3).
      rewrite R1 in Q1. injection Q1 as <- <- <- <-.
      rewrite (run_wave_same _ v u) in D4 by exact Hs. rewrite Hvt, Hvp, Hvw, Hvl in D4.
      rewrite P1 in D4. cbn [Nat.leb andb] in D4.
      replace ((j <? n)%nat && negb (vol u j =? 0)) with true in D4 by lia.
      rewrite <- Q3 in D4. eexists.
      eapply run_wave_split with (1 := Hw); try eassumption. lia. }
    cbn [Z.of_nat] in E3.
    exists u3, t3.
    pose proof E3 as E3'. change 0 with (Z.of_nat 0) in E3' at 1.
    apply wave_channels_char in E3'. destruct E3' as (m3 & C3 & L3 & LL3 & P3 & N3). cbv zeta in *.
    cbn [Nat.add] in *.
    destruct m3 as [[[[t3' ph3] wc3] raw3]|].
    2:{ exfalso. destruct C3 as (C3 & _). specialize (C3 k Hk). contradiction. }
    destruct C3 as (R3 & _ & Et3 & Hu3). rewrite RS in R3. injection R3 as <- <- <- <-.
    assert (El : l3 = zip_app l1 l2).
    { apply nth_ext with (d := []) (d' := []).
      - rewrite zip_app_length by lia. lia.
      - intros j Hj. rewrite zip_app_nth by lia. rewrite N3, N1, N2 by lia. rewrite Hvol, Hvl, P1.
        destruct (vol u j =? 0) eqn:Ej; [reflexivity|].
        cbn [Nat.leb andb]. replace ((j <? n)%nat && negb false) with true by lia.
        apply chan_deltas_app. }
    split; [rewrite E3, El; reflexivity|].
    assert (Elast : un_lastPulse u3 = un_lastPulse u2).
    { apply list_eq_nth.
      - rewrite LL3, LL2. unfold v. ucbn. lia.
      - intros j. fold (lastp u3 j) (lastp u2 j). rewrite P3, P2, Hvol, Hvl, P1.
        destruct ((0 <=? j)%nat && (j <? n)%nat && negb (vol u j =? 0)) eqn:Ec; [|reflexivity].
        apply last_level_app. }
    rewrite Hu3, Hu2, Elast, Et3, Etb. unfold v. rewrite Hu1. reflexivity.
  - (* silent *)
    destruct C1 as (Z1 & -> & ->).
    assert (Hvol : forall k, vol v k = vol u k) by reflexivity.
    destruct m2 as [[[[tb' ph2] wc2] raw2]|].
    { exfalso. destruct C2 as (_ & (k & Hk & Hkv) & _). rewrite Hvol in Hkv. specialize (Z1 k Hk). contradiction. }
    destruct C2 as (Z2 & -> & ->).
    destruct (wave_channels_ok n 0 (f1 + f2) u (ph_phase (un_phase u)) (ph_wrapCount (un_phase u)) 0 t2)
      as ([[u3 t3] l3] & E3).
    { intros j Hj. destruct (A1 j Hj) as [B1 B2]. split; [exact B1|].
      intros Hv. specialize (Z1 j Hj). contradiction. }
    cbn [Z.of_nat] in E3. exists u3, t3.
    pose proof E3 as E3'. change 0 with (Z.of_nat 0) in E3' at 1.
    apply wave_channels_char in E3'. destruct E3' as (m3 & C3 & L3 & LL3 & P3 & N3). cbv zeta in *.
    cbn [Nat.add] in *.
    destruct m3 as [[[[t3' ph3] wc3] raw3]|].
    { exfalso. destruct C3 as (_ & (k & Hk & Hkv) & _). specialize (Z1 k Hk). contradiction. }
    destruct C3 as (_ & -> & ->).
    assert (El : l3 = zip_app l1 l2).
    { apply nth_ext with (d := []) (d' := []).
      - rewrite zip_app_length by lia. lia.
      - intros j Hj. rewrite zip_app_nth by lia. rewrite N3, N1, N2 by lia. rewrite Hvol.
        specialize (Z1 j ltac:(lia)). replace (vol u j =? 0) with true by lia. reflexivity. }
    split; [rewrite E3, El; reflexivity|]. reflexivity.
Qed.

(** ** Samples *)

Lemma wrap_down_fuel fuel : forall phase max len r, wrap_down fuel phase max len = Ok r ->
  forall more, wrap_down (fuel + more) phase max len = Ok r.
Proof.
  induction fuel as [|fuel IH]; intros * H more; cbn [wrap_down] in H.
  - destruct (s32 phase >=? max) eqn:E; [discriminate|].
    destruct more; cbn [Nat.add wrap_down]; rewrite E; exact H.
  - cbn [Nat.add wrap_down]. destruct (s32 phase >=? max); [|exact H]. apply IH. exact H.
Qed.

Lemma wrap_up_fuel fuel : forall phase min len r, wrap_up fuel phase min len = Ok r ->
  forall more, wrap_up (fuel + more) phase min len = Ok r.
Proof.
  induction fuel as [|fuel IH]; intros * H more; cbn [wrap_up] in H.
  - destruct (s32 phase <? min) eqn:E; [discriminate|].
    destruct more; cbn [Nat.add wrap_up]; rewrite E; exact H.
  - cbn [Nat.add wrap_up]. destruct (s32 phase <? min); [|exact H]. apply IH. exact H.
Qed.

Lemma wrap_phase_fuel fuel phase min max r : BKUnitWrapSamplePhase fuel phase min max = Ok r ->
  forall more, BKUnitWrapSamplePhase (fuel + more) phase min max = Ok r.
Proof.
  unfold BKUnitWrapSamplePhase. intros H more. apply bind_ok in H. destruct H as (len & -> & H). cbn [bind].
  destruct (s32 phase >=? max).
  - apply bind_ok in H. destruct H as (p & E & H). rewrite (wrap_down_fuel _ _ _ _ _ E). exact H.
  - destruct (s32 phase <? min); [|exact H].
    apply bind_ok in H. destruct H as (p & E & H). rewrite (wrap_up_fuel _ _ _ _ _ E). exact H.
Qed.

Lemma reset_fuel fuel u r : BKUnitResetSample fuel u = Ok r ->
  forall more, BKUnitResetSample (fuel + more) u = Ok r.
Proof.
  unfold BKUnitResetSample. cbv zeta. intros H more.
  apply bind_ok in H. destruct H as (x & E & H). rewrite (wrap_phase_fuel _ _ _ _ _ E). exact H.
Qed.

(** Members a sample run does not change. *)
Definition same_frame (u v : bkunit) : Prop :=
  un_ctx u = un_ctx v /\ un_time u = un_time v /\ un_period u = un_period v /\
  un_waveform u = un_waveform v /\ un_duty u = un_duty v /\ un_volume u = un_volume v /\
  un_sustain u = un_sustain v /\ un_jump u = un_jump v /\ un_release u = un_release v /\
  ph_wrap (un_phase u) = ph_wrap (un_phase v) /\ ph_wrapCount (un_phase u) = ph_wrapCount (un_phase v) /\
  ph_count (un_phase u) = ph_count (un_phase v) /\
  sm_data (un_sample u) = sm_data (un_sample v) /\
  sm_numChannels (un_sample u) = sm_numChannels (un_sample v) /\
  sm_length (un_sample u) = sm_length (un_sample v) /\
  sm_offset (un_sample u) = sm_offset (un_sample v) /\
  sm_end (un_sample u) = sm_end (un_sample v) /\
  sm_repeatMode (un_sample u) = sm_repeatMode (un_sample v) /\
  sm_sustainOffset (un_sample u) = sm_sustainOffset (un_sample v) /\
  sm_sustainEnd (un_sample u) = sm_sustainEnd (un_sample v) /\
  sm_callback (un_sample u) = sm_callback (un_sample v) /\
  sm_frames (un_sample u) = sm_frames (un_sample v).

Lemma same_frame_refl u : same_frame u u.
Proof. repeat split. Qed.

Lemma same_frame_trans u v w : same_frame u v -> same_frame v w -> same_frame u w.
Proof. unfold same_frame. intros H K. decompose [and] H. decompose [and] K. repeat split; (etransitivity; [eassumption|eassumption]). Qed.

Lemma advance_frame u u' : sample_advance u = Ok u' -> same_frame u' u /\ un_mute u' = un_mute u /\
  un_lastPulse u' = un_lastPulse u.
Proof.
  unfold sample_advance. cbv zeta. intros H. apply bind_ok in H. destruct H as (tf & _ & H).
  assert (E : u' = set_phase (set_sm u (s_timeFrac (un_sample u) (Z.land tf BK_FINT20_FRAC)))
    (u32 (ph_phase (un_phase u) + (Z.shiftr tf BK_FINT20_SHIFT - Z.shiftr (sm_timeFrac (un_sample u)) BK_FINT20_SHIFT))))
    by congruence.
  rewrite E. clear. generalize (Z.land tf BK_FINT20_FRAC). intros z. generalize (u32 (ph_phase (un_phase u) + (Z.shiftr tf BK_FINT20_SHIFT - Z.shiftr (sm_timeFrac (un_sample u)) BK_FINT20_SHIFT))).
  intros y. repeat split.
Qed.

Lemma reset_frame fuel u u' h : BKUnitResetSample fuel u = Ok (u', h) ->
  same_frame u' u /\ un_mute u' = (if h then 1 else un_mute u) /\ un_lastPulse u' = un_lastPulse u.
Proof.
  unfold BKUnitResetSample. cbv zeta. intros H. apply bind_ok in H. destruct H as ([ph dir] & _ & H).
  match type of H with context [let '(_, _) := ?x in _] => destruct x as [ph' mode] end.
  destruct (mode =? 0).
  - injection H as <- <-. repeat split.
  - apply bind_ok in H. destruct H as (p & _ & H). injection H as <- <-. repeat split.
Qed.

Lemma sustain_frame c u : same_frame (sustain_step c u) u /\ un_mute (sustain_step c u) = un_mute u /\
  un_lastPulse (sustain_step c u) = un_lastPulse u.
Proof.
  unfold sustain_step. cbv zeta. destruct c; [|repeat split].
  destruct (_ >? 0); [destruct (_ >=? _)|destruct (_ <? _)]; repeat split.
Qed.

Lemma sample_loop_frame fuel : forall u n c time t u' ta l,
  sample_loop fuel u n c time t = Ok (u', ta, l) ->
  -2147483648 <= time <= 2147483647 ->
  same_frame u' u /\ length l = Z.to_nat n /\ -2147483648 <= ta <= 2147483647 /\
  un_mute u' = (if u32 ta <? t then 1 else un_mute u).
Proof.
  induction fuel as [|fuel IH]; intros * H Ht; cbn [sample_loop] in H.
  - destruct (u32 time <? t) eqn:E; [discriminate|]. injection H as <- <- <-. rewrite E.
    rewrite repeat_length. repeat split; lia.
  - destruct (u32 time <? t) eqn:E.
    2:{ injection H as <- <- <-. rewrite E. rewrite repeat_length. repeat split; lia. }
    cbv zeta in H. apply bind_ok in H. destruct H as ([last d] & E1 & H).
    apply bind_ok in H. destruct H as (a & E2 & H). apply bind_ok in H. destruct H as (u1 & E3 & H).
    apply advance_frame in E3. destruct E3 as (F1 & M1 & _).
    assert (F1' : same_frame u1 u) by exact F1.
    assert (M1' : un_mute u1 = un_mute u) by exact M1. clear F1 M1.
    apply bind_ok in H. destruct H as ([u2 halt] & E4 & H).
    assert (F2 : same_frame u2 u1 /\ un_mute u2 = (if halt then 1 else un_mute u1)).
    { destruct ((_ <? 0) || _).
      - apply reset_frame in E4. tauto.
      - injection E4 as <- <-. split; [apply same_frame_refl|reflexivity]. }
    destruct F2 as [F2 M2].
    destruct halt.
    + injection H as <- <- <-. rewrite E. rewrite zip_pulses_length, repeat_length.
      split; [|split; [reflexivity|split; [lia|exact M2]]].
      eapply same_frame_trans; eassumption.
    + apply bind_ok in H. destruct H as (nx & E5 & H). apply chk32_inv in E5. destruct E5 as [-> E5].
      apply bind_ok in H. destruct H as ([[u3 t3] l3] & E6 & H). injection H as <- <- <-.
      apply IH in E6; [|lia]. destruct E6 as (F3 & L3 & T3 & M3).
      destruct (sustain_frame c u2) as (F4 & M4 & _).
      rewrite zip_pulses_length. split; [|split; [exact L3|split; [exact T3|]]].
      * eapply same_frame_trans; [exact F3|]. eapply same_frame_trans; [exact F4|].
        eapply same_frame_trans; eassumption.
      * rewrite M3, M4, M2, M1'. reflexivity.
Qed.

Lemma sample_loop_fuel fuel : forall u n c time t r, sample_loop fuel u n c time t = Ok r ->
  forall more, sample_loop (fuel + more) u n c time t = Ok r.
Proof.
  induction fuel as [|fuel IH]; intros * H more; cbn [sample_loop] in H.
  - destruct (u32 time <? t) eqn:E; [discriminate|].
    destruct more; cbn [Nat.add sample_loop]; rewrite E; exact H.
  - cbn [Nat.add sample_loop]. destruct (u32 time <? t); [|exact H]. cbv zeta in *.
    apply bind_ok in H. destruct H as ([last d] & -> & H). cbn [bind].
    apply bind_ok in H. destruct H as (a & -> & H). cbn [bind].
    apply bind_ok in H. destruct H as (u1 & -> & H). cbn [bind].
    apply bind_ok in H. destruct H as ([u2 halt] & E4 & H).
    assert (E4' : (if (s32 (ph_phase (un_phase u1)) <? 0)
               || (s32 (ph_phase (un_phase u1)) >=? s32 (sm_length (un_sample u1)))
            then BKUnitResetSample (S (fuel + more)) u1
            else Ok (u1, false)) = Ok (u2, halt)).
    { destruct (_ || _); [|exact E4]. apply (reset_fuel _ _ _ E4 more). }
    rewrite E4'. cbn [bind]. destruct halt; [exact H|].
    apply bind_ok in H. destruct H as (nx & -> & H). cbn [bind].
    apply bind_ok in H. destruct H as ([[u3 t3] l3] & E6 & H). rewrite (IH _ _ _ _ _ _ E6 more). exact H.
Qed.

Lemma sample_loop_split f1 : forall f2 u n c time t1 t2 u1 ta l1,
  t1 <= t2 -> -2147483648 <= time <= 2147483647 ->
  sample_loop f1 u n c time t1 = Ok (u1, ta, l1) ->
  (u32 ta < t1 /\ sample_loop (f1 + f2) u n c time t2 = Ok (u1, ta, l1)) \/
  (t1 <= u32 ta /\ forall u2 tb l2, sample_loop f2 u1 n c ta t2 = Ok (u2, tb, l2) ->
   sample_loop (f1 + f2) u n c time t2 = Ok (u2, tb, zip_app l1 l2)).
Proof.
  induction f1 as [|f1 IH]; intros * Ht Hti H; cbn [sample_loop] in H.
  - destruct (u32 time <? t1) eqn:E; [discriminate|]. injection H as <- <- <-. right.
    split; [lia|]. intros * H2. cbn [Nat.add]. rewrite zip_app_nil_l; [exact H2|].
    apply sample_loop_frame in H2; tauto.
  - destruct (u32 time <? t1) eqn:E.
    + cbn [Nat.add sample_loop]. replace (u32 time <? t2) with true by lia. cbv zeta in *.
      apply bind_ok in H. destruct H as ([last d] & -> & H). cbn [bind].
      apply bind_ok in H. destruct H as (a & -> & H). cbn [bind].
      apply bind_ok in H. destruct H as (v1 & -> & H). cbn [bind].
      apply bind_ok in H. destruct H as ([v2 halt] & E4 & H).
      assert (E4' : (if (s32 (ph_phase (un_phase v1)) <? 0)
                 || (s32 (ph_phase (un_phase v1)) >=? s32 (sm_length (un_sample v1)))
              then BKUnitResetSample (S (f1 + f2)) v1
              else Ok (v1, false)) = Ok (v2, halt)).
      { destruct (_ || _); [|exact E4]. apply (reset_fuel _ _ _ E4 f2). }
      rewrite E4'. cbn [bind]. destruct halt.
      * injection H as <- <- <-. left. split; [lia|reflexivity].
      * apply bind_ok in H. destruct H as (nx & E5 & H). rewrite E5. cbn [bind].
        apply chk32_inv in E5. destruct E5 as [-> E5].
        apply bind_ok in H. destruct H as ([[u3 t3] l3] & E6 & H). injection H as <- <- <-.
        destruct (IH f2 _ _ _ _ _ _ _ _ _ Ht E5 E6) as [[K1 K2]|[K1 K2]].
        -- left. split; [exact K1|]. rewrite K2. reflexivity.
        -- right. split; [exact K1|]. intros * H2. rewrite (K2 _ _ _ H2). cbn [bind].
           rewrite zip_pulses_app. reflexivity.
    + injection H as <- <- <-. right. split; [lia|]. intros * H2.
      rewrite zip_app_nil_l by (apply sample_loop_frame in H2; tauto).
      pose proof (sample_loop_fuel _ _ _ _ _ _ _ H2 (S f1)) as H3.
      replace (f2 + S f1)%nat with (S f1 + f2)%nat in H3 by lia. exact H3.
Qed.

(** The loop does not look at the time of the unit. *)
Lemma sample_channels_time x k : forall i u idx,
  sample_channels k i (set_time u x) idx = sample_channels k i u idx.
Proof.
  induction k as [|k IH]; intros *; cbn [sample_channels]; [reflexivity|].
  change (un_sample (set_time u x)) with (un_sample u).
  change (un_volume (set_time u x)) with (un_volume u).
  change (un_lastPulse (set_time u x)) with (un_lastPulse u).
  destruct (sm_frames (un_sample u)) as [[fr ba]|]; [|reflexivity].
  destruct (aget (un_volume u) i); cbn [bind]; [|reflexivity].
  destruct (aget fr _); cbn [bind]; [|reflexivity].
  destruct (aget (un_lastPulse u) i); cbn [bind]; [|reflexivity].
  destruct (pulse_delta _ _ _) as [[de ch]|]; cbn [bind]; [|reflexivity].
  destruct (aset _ _ _) as [la|]; cbn [bind]; [|reflexivity].
  change (set_lastPulse (set_time u x) la) with (set_time (set_lastPulse u la) x). rewrite IH. reflexivity.
Qed.

Lemma sample_advance_time x u : sample_advance (set_time u x) =
  match sample_advance u with Ok u' => Ok (set_time u' x) | Err e => Err e end.
Proof.
  unfold sample_advance. cbv zeta. change (un_sample (set_time u x)) with (un_sample u).
  change (un_phase (set_time u x)) with (un_phase u). destruct (chk32 _); reflexivity.
Qed.

Lemma reset_time x fuel u : BKUnitResetSample fuel (set_time u x) =
  match BKUnitResetSample fuel u with Ok (u', h) => Ok (set_time u' x, h) | Err e => Err e end.
Proof.
  unfold BKUnitResetSample. cbv zeta. change (un_sample (set_time u x)) with (un_sample u).
  change (un_phase (set_time u x)) with (un_phase u).
  destruct (BKUnitWrapSamplePhase _ _ _ _) as [[ph1 dir]|]; cbn [bind]; [|reflexivity].
  match goal with |- context [let '(_, _) := ?e in _] => destruct e as [ph2 mode] end.
  destruct (mode =? 0); [reflexivity|]. destruct (abs32 _); reflexivity.
Qed.

Lemma sustain_time x c u : sustain_step c (set_time u x) = set_time (sustain_step c u) x.
Proof.
  unfold sustain_step. cbv zeta. change (un_sample (set_time u x)) with (un_sample u).
  change (un_phase (set_time u x)) with (un_phase u). destruct c; [|reflexivity].
  destruct (_ >? 0); [destruct (_ >=? _)|destruct (_ <? _)]; reflexivity.
Qed.

Lemma sample_loop_time x n c t : forall fuel u time, sample_loop fuel (set_time u x) n c time t =
  match sample_loop fuel u n c time t with Ok (u', a, b) => Ok (set_time u' x, a, b) | Err e => Err e end.
Proof.
  induction fuel as [|fuel IH]; intros *; cbn [sample_loop]; destruct (u32 time <? t); try reflexivity.
  change (un_sample (set_time u x)) with (un_sample u). change (un_phase (set_time u x)) with (un_phase u).
  rewrite sample_channels_time.
  destruct (sample_channels _ _ _ _) as [[last d]|]; [|reflexivity]. cbn [bind].
  destruct (chk32 (time + sm_timeFrac _)); [|reflexivity]. cbn [bind].
  change (set_lastPulse (set_time u x) last) with (set_time (set_lastPulse u last) x).
  rewrite sample_advance_time. destruct (sample_advance (set_lastPulse u last)) as [v|]; [|reflexivity]. cbn [bind].
  change (un_sample (set_time v x)) with (un_sample v). change (un_phase (set_time v x)) with (un_phase v).
  rewrite reset_time.
  destruct ((s32 (ph_phase (un_phase v)) <? 0) || (s32 (ph_phase (un_phase v)) >=? s32 (sm_length (un_sample v)))).
  - destruct (BKUnitResetSample _ v) as [[w h]|]; [|reflexivity]. cbn [bind]. destruct h; [reflexivity|].
    destruct (chk32 (time + _)); [|reflexivity]. cbn [bind]. rewrite sustain_time, IH.
    destruct (sample_loop _ _ _ _ _ _) as [[[? ?] ?]|]; reflexivity.
  - cbn [bind]. destruct (chk32 (time + _)); [|reflexivity]. cbn [bind]. rewrite sustain_time, IH.
    destruct (sample_loop _ _ _ _ _ _) as [[[? ?] ?]|]; reflexivity.
Qed.

(** ** Any unit *)

Lemma raise_twice a t1 t2 : t1 <= t2 ->
  (if (if a <? t1 then t1 else a) <? t2 then t2 else if a <? t1 then t1 else a) = (if a <? t2 then t2 else a).
Proof.
  intros. destruct (Z.ltb_spec a t1); destruct (Z.ltb_spec a t2); try (destruct (Z.ltb_spec t1 t2)); lia.
Qed.

Theorem run_split f1 f2 u t1 t2 u1 l1 u2 l2 :
  unit_typed u -> 0 <= ph_phase (un_phase u) -> 0 <= t1 <= t2 ->
  BKUnitRun f1 u t1 = Ok (u1, l1) ->
  BKUnitRun f2 u1 t2 = Ok (u2, l2) ->
  BKUnitRun (f1 + f2) u t2 = Ok (u2, zip_app l1 l2).
Proof.
  intros Hty Hph Ht H1 H2. unfold BKUnitRun in *.
  destruct (un_ctx u) as [n|] eqn:Ectx; [|discriminate]. cbv zeta in *.
  apply bind_ok in H1. destruct H1 as ([[v1 ta] m1] & E1 & H1). injection H1 as <- <-.
  change (un_ctx (set_time v1 (if ta <? t1 then t1 else ta))) with (un_ctx v1) in H2.
  change (un_period (set_time v1 (if ta <? t1 then t1 else ta))) with (un_period v1) in H2.
  change (un_waveform (set_time v1 (if ta <? t1 then t1 else ta))) with (un_waveform v1) in H2.
  assert (Idle : forall x, Ok (u, x, repeat [] (Z.to_nat n)) = Ok (v1, ta, m1) ->
            v1 = u /\ ta = x /\ m1 = repeat [] (Z.to_nat n)).
  { intros x E. injection E as <- <- <-. auto. }
  destruct (un_period u =? 0) eqn:Ep.
  { apply Idle in E1. destruct E1 as (-> & -> & ->). rewrite Ectx, Ep in H2. cbn [bind] in *.
    injection H2 as <- <-. rewrite zip_app_nil_l by apply repeat_length. ucbn.
    rewrite raise_twice by lia. reflexivity. }
  destruct ((BK_SQUARE <=? un_waveform u) && (un_waveform u <=? BK_CUSTOM)) eqn:Ew.
  - unfold BKUnitRunWaveform in *. destruct (negb (un_mute u =? 0)) eqn:Em.
    + apply Idle in E1. destruct E1 as (-> & -> & ->). rewrite Ectx, Ep, Ew in H2.
      change (un_mute (set_time u (if 0 <? t1 then t1 else 0))) with (un_mute u) in H2. rewrite Em in H2.
      cbn [bind] in *. injection H2 as <- <-. rewrite zip_app_nil_l by apply repeat_length. reflexivity.
    + assert (Hs : un_ctx v1 = un_ctx u /\ un_period v1 = un_period u /\ un_waveform v1 = un_waveform u /\
                   un_mute v1 = un_mute u).
      { pose proof E1 as E. change 0 with (Z.of_nat 0) in E at 1. apply wave_channels_char in E.
        destruct E as ([[[[t0 ph] wc] raw]|] & C & _).
        - destruct C as (_ & _ & _ & ->). repeat split.
        - destruct C as (_ & -> & _). repeat split. }
      destruct Hs as (S1 & S2 & S3 & S4). rewrite S1, S2, S3, Ectx, Ep, Ew in H2.
      change (un_mute (set_time v1 (if ta <? t1 then t1 else ta))) with (un_mute v1) in H2. rewrite S4, Em in H2.
      apply bind_ok in H2. destruct H2 as ([[v2 tb] m2] & E2 & H2). injection H2 as <- <-.
      destruct Hty as [T1 T2 T3 T4].
      destruct (channels_split _ _ _ _ _ _ _ _ _ _ _ _ T3 Hph Ht E1 E2) as (u3 & t3 & E3 & E4).
      rewrite E3. cbn [bind]. rewrite E4. reflexivity.
  - destruct (un_waveform u =? BK_SAMPLE) eqn:Es.
    + unfold BKUnitRunSample in *. cbv zeta in *. destruct (negb (un_mute u =? 0)) eqn:Em.
      * apply Idle in E1. destruct E1 as (-> & -> & ->). rewrite Ectx, Ep, Ew, Es in H2.
        change (un_mute (set_time u (if t1 <? t1 then t1 else t1))) with (un_mute u) in H2. rewrite Em in H2.
        cbn [bind] in *. injection H2 as <- <-. rewrite zip_app_nil_l by apply repeat_length. reflexivity.
      * apply bind_ok in E1. destruct E1 as (dd & D1 & E1). rewrite D1.
        apply bind_ok in E1. destruct E1 as (len & D2 & E1). cbn [bind]. rewrite D2. cbn [bind].
        destruct (len <? 2) eqn:El.
        -- apply Idle in E1. destruct E1 as (-> & -> & ->). rewrite Ectx, Ep, Ew, Es in H2.
           change (un_mute (set_time u (if t1 <? t1 then t1 else t1))) with (un_mute u) in H2. rewrite Em in H2.
           change (un_sample (set_time u (if t1 <? t1 then t1 else t1))) with (un_sample u) in H2.
           rewrite D1 in H2. cbn [bind] in H2. rewrite D2 in H2. cbn [bind] in H2. rewrite El in H2.
           cbn [bind] in *. injection H2 as <- <-. rewrite zip_app_nil_l by apply repeat_length. reflexivity.
        -- apply bind_ok in E1. destruct E1 as ([[w1 tw] k1] & E1 & K). injection K as <- <- <-.
           pose proof (s32_range (un_time u)) as Hr.
           pose proof (sample_loop_frame _ _ _ _ _ _ _ _ _ E1 Hr) as (F & L & T & M).
           destruct F as (F1 & F2 & F3 & F4 & _ & _ & F5 & _ & F6 & _ & _ & _ & _ & _ & _ & F7 & F8 & _).
           rewrite F1, F3, F4, Ectx, Ep, Ew, Es in H2.
           match type of H2 with context [un_mute (set_time ?a ?b)] =>
             change (un_mute (set_time a b)) with (un_mute a) in H2;
             change (un_sample (set_time a b)) with (un_sample a) in H2;
             change (un_sustain (set_time a b)) with (un_sustain a) in H2;
             change (un_release (set_time a b)) with (un_release a) in H2;
             change (un_time (set_time a b)) with b in H2 end.
           rewrite M, F5, F6, F7, F8 in H2.
           destruct (sample_loop_split f1 f2 _ _ _ _ _ t2 _ _ _ (proj2 Ht) Hr E1) as [[K1 K2]|[K1 K2]].
           ++ replace (u32 tw <? t1) with true in H2 by lia. cbn [Z.eqb negb bind] in H2.
              injection H2 as <- <-. rewrite K2. cbn [bind].
              rewrite zip_app_nil_r by exact L. do 2 f_equal.
              replace (u32 tw <? t2) with true by lia.
              replace (t2 <? t2) with false by lia. reflexivity.
           ++ replace (u32 tw <? t1) with false in H2 by lia. rewrite Em in H2.
              rewrite D1 in H2. cbn [bind] in H2. rewrite D2 in H2. cbn [bind] in H2. rewrite El in H2.
              rewrite s32_u32 in H2 by lia.
              apply bind_ok in H2. destruct H2 as ([[w2 tb] k2] & E2 & H2).
              apply bind_ok in E2. destruct E2 as ([[w3 tc] k3] & E2 & K). injection K as <- <- <-.
              injection H2 as <- <-.
              rewrite sample_loop_time in E2.
              destruct (sample_loop f2 w1 n _ tw t2) as [[[w4 td] k4]|] eqn:E5; [|discriminate].
              injection E2 as <- <- <-. rewrite (K2 _ _ _ eq_refl). reflexivity.
    + apply Idle in E1. destruct E1 as (-> & -> & ->). rewrite Ectx, Ep, Ew, Es in H2. cbn [bind] in *.
      injection H2 as <- <-. rewrite zip_app_nil_l by apply repeat_length. ucbn.
      rewrite raise_twice by lia. reflexivity.
Qed.
