(** Proofs about the waveforms of units: running in parts. *)
From Verif Require Import CInt CIntFacts DataModel UnitModel UnitSpec UnitProofs.
Ltac Zify.zify_post_hook ::= idtac.

Lemma u32_s32 z : 0 <= z < 4294967296 -> u32 (s32 z) = z.
Proof.
  intros H. unfold u32, s32. symmetry.
  apply Z.mod_unique_pos with (q := ((z + 2147483648) mod 4294967296 - 2147483648 - z) / 4294967296).
  - exact H.
  - pose proof (Z.div_mod (z + 2147483648) 4294967296 ltac:(lia)) as D.
    set (q := (z + 2147483648) / 4294967296) in *. set (m := (z + 2147483648) mod 4294967296) in *.
    clearbody q m. replace (m - 2147483648 - z) with ((- q) * 4294967296) by lia.
    rewrite Z.div_mul by lia. lia.
Qed.

Lemma s32_u32 z : -2147483648 <= z <= 2147483647 -> s32 (u32 z) = z.
Proof.
  intros H. unfold u32, s32.
  rewrite Zplus_mod_idemp_l. rewrite Z.mod_small by lia. lia.
Qed.

(** ** Noise *)

Lemma noise_step_nonzero phase : 0 <= phase -> phase <> 0 -> fst (noise_step phase) <> 0 /\ 0 <= fst (noise_step phase).
Proof.
  intros H0 Hn. unfold noise_step. cbn [fst].
  set (b := Z.land _ 1).
  assert (Hb : b = 0 \/ b = 1).
  { unfold b. rewrite Z.land_comm. change (Z.land 1) with (Z.land (Z.ones 1)). rewrite Z.land_comm, Z.land_ones by lia.
    match goal with |- ?x mod _ = _ \/ _ => pose proof (Z.mod_pos_bound x (2 ^ 1) ltac:(lia)) end. lia. }
  assert (Hs : 0 <= Z.shiftr phase 1) by (apply Z.shiftr_nonneg; lia).
  assert (Hu : u32 (Z.shiftl b 15) = b * 32768).
  { rewrite Z.shiftl_mul_pow2 by lia. change (2 ^ 15) with 32768. apply u32_id. lia. }
  rewrite Hu. split.
  - intros E. apply Z.lor_eq_0_iff in E. destruct E as [E1 E2].
    assert (Hb0 : b = 0) by lia. rewrite shiftr_div in E1 by lia. change (2 ^ 1) with 2 in E1.
    assert (phase = 1).
    { pose proof (Z.div_mod phase 2 ltac:(lia)). pose proof (Z.mod_pos_bound phase 2 ltac:(lia)). lia. }
    subst phase. unfold b in Hb0. vm_compute in Hb0. discriminate.
  - apply Z.lor_nonneg. split; [exact Hs|lia].
Qed.

Lemma wrap_step_range w wc ph first wc' ph' :
  0 <= w < 4294967296 -> 0 <= wc < 4294967296 -> wrap_step w wc ph first = (wc', ph') ->
  0 <= wc' < 4294967296 /\ (ph' = ph \/ ph' = first).
Proof.
  unfold wrap_step. intros Hw Hwc. pose proof (u32_range (wc - 1)).
  destruct (negb (w =? 0)); cbv zeta; [destruct (u32 (wc - 1) <=? 0)|]; intros E; injection E as <- <-; auto.
Qed.

(** After a step the wrap count is one of its type, and noise is not stuck. *)
Lemma wave_step_ranges u phase wc p ph' wc' :
  0 <= ph_wrap (un_phase u) < 4294967296 -> 0 <= wc < 4294967296 ->
  wave_step u phase wc = Ok (p, ph', wc') ->
  0 <= wc' < 4294967296 /\
  (un_waveform u = BK_NOISE -> 0 <= phase -> phase <> 0 -> 0 <= ph' /\ ph' <> 0).
Proof.
  intros Hw Hwc. unfold wave_step.
  destruct (un_waveform u =? BK_SQUARE) eqn:E1.
  { intros H. apply bind_ok in H. destruct H as (row & _ & H). apply bind_ok in H. destruct H as (q & _ & H).
    injection H as <- <- <-. split; [exact Hwc|]. intros E. rewrite E in E1. discriminate. }
  destruct (un_waveform u =? BK_TRIANGLE) eqn:E2.
  { intros H. apply bind_ok in H. destruct H as (q & _ & H).
    injection H as <- <- <-. split; [exact Hwc|]. intros E. rewrite E in E2. discriminate. }
  destruct (un_waveform u =? BK_NOISE) eqn:E3.
  { destruct (wrap_step _ _ _ _) as [wc1 ph1] eqn:Ew. apply wrap_step_range in Ew; [|assumption..].
    destruct Ew as [Hwc1 Hph1]. destruct (noise_step ph1) as [ph2 q] eqn:En. intros H.
    injection H as <- <- <-. split; [exact Hwc1|]. intros _ H0 Hn.
    assert (H1 : 0 <= ph1 /\ ph1 <> 0) by (destruct Hph1 as [-> | ->]; split; lia).
    pose proof (noise_step_nonzero ph1 (proj1 H1) (proj2 H1)) as N. rewrite En in N. cbn [fst] in N. tauto. }
  destruct (un_waveform u =? BK_SAWTOOTH) eqn:E4.
  { intros H. apply bind_ok in H. destruct H as (q & _ & H).
    injection H as <- <- <-. split; [exact Hwc|]. intros E. rewrite E in E3. discriminate. }
  destruct (un_waveform u =? BK_SINE) eqn:E5.
  { intros H. apply bind_ok in H. destruct H as (q & _ & H).
    injection H as <- <- <-. split; [exact Hwc|]. intros E. rewrite E in E3. discriminate. }
  destruct (wrap_step _ _ _ _) as [wc1 ph1] eqn:Ew. apply wrap_step_range in Ew; [|assumption..].
  destruct Ew as [Hwc1 Hph1]. destruct (sm_frames (un_sample u)) as [[frames base]|]; [|discriminate].
  intros H. apply bind_ok in H. destruct H as (q & _ & H). injection H as <- <- <-.
  split; [exact Hwc1|]. intros E. rewrite E in E3. discriminate.
Qed.

Lemma wave_raw_ranges fuel : forall u endTime time phase wc t ph wc' raw,
  0 <= ph_wrap (un_phase u) < 4294967296 -> 0 <= wc < 4294967296 ->
  wave_raw fuel u endTime time phase wc = Ok (t, ph, wc', raw) ->
  0 <= wc' < 4294967296 /\
  (un_waveform u = BK_NOISE -> 0 <= phase -> phase <> 0 -> 0 <= ph /\ ph <> 0).
Proof.
  induction fuel as [|fuel IH]; intros * Hw Hwc; cbn [wave_raw]; destruct (time <? endTime); intros H.
  - discriminate.
  - injection H as <- <- <- <-. auto.
  - apply bind_ok in H. destruct H as ([[p ph1] wc1] & E1 & H).
    apply wave_step_ranges in E1; [|assumption..]. destruct E1 as [Hwc1 Hp1].
    apply bind_ok in H. destruct H as ([[[t2 ph2] wc2] raw2] & E3 & H).
    injection H as <- <- <- <-. apply IH in E3; [|assumption..]. destruct E3 as [Hwc2 Hp2].
    split; [exact Hwc2|]. intros Hn H0 Hz. destruct (Hp1 Hn H0 Hz). auto.
  - injection H as <- <- <- <-. auto.
Qed.

(** ** Running in two parts *)

Lemma wave_loop_fuel fuel : forall u v endTime time phase wc last r,
  wave_loop fuel u v endTime time phase wc last = Ok r ->
  forall more, wave_loop (fuel + more) u v endTime time phase wc last = Ok r.
Proof.
  induction fuel as [|fuel IH]; intros * H more.
  - cbn [wave_loop] in H. destruct more; cbn [Nat.add wave_loop]; destruct (time <? endTime); congruence.
  - cbn [Nat.add wave_loop] in *. destruct (time <? endTime); [|exact H].
    apply bind_ok in H. destruct H as ([[p ph1] wc1] & E1 & H). rewrite E1. cbn [bind].
    apply bind_ok in H. destruct H as ([d c] & E2 & H). rewrite E2. cbn [bind].
    apply bind_ok in H. destruct H as ([[[[t2 ph2] wc2] lp2] l2] & E3 & H).
    rewrite (IH _ _ _ _ _ _ _ _ E3 more). exact H.
Qed.

Lemma wave_loop_split f1 : forall f2 u v t1 t2 time phase wc last ta pha wca lpa la tb phb wcb lpb lb,
  t1 <= t2 ->
  wave_loop f1 u v t1 time phase wc last = Ok (ta, pha, wca, lpa, la) ->
  wave_loop f2 u v t2 ta pha wca lpa = Ok (tb, phb, wcb, lpb, lb) ->
  wave_loop (f1 + f2) u v t2 time phase wc last = Ok (tb, phb, wcb, lpb, la ++ lb).
Proof.
  induction f1 as [|f1 IH]; intros * Ht H1 H2.
  - cbn [wave_loop] in H1. destruct (time <? t1); [discriminate|].
    injection H1 as <- <- <- <- <-. exact H2.
  - cbn [Nat.add wave_loop] in H1 |- *. destruct (time <? t1) eqn:Et.
    + replace (time <? t2) with true by lia.
      apply bind_ok in H1. destruct H1 as ([[p ph1] wc1] & E1 & H1). rewrite E1. cbn [bind].
      apply bind_ok in H1. destruct H1 as ([d c] & E2 & H1). rewrite E2. cbn [bind].
      apply bind_ok in H1. destruct H1 as ([[[[t3 ph3] wc3] lp3] l3] & E3 & H1).
      injection H1 as <- <- <- <- <-.
      rewrite (IH _ _ _ _ _ _ _ _ _ _ _ _ _ _ _ _ _ _ _ Ht E3 H2). reflexivity.
    + injection H1 as <- <- <- <- <-.
      pose proof (wave_loop_fuel _ _ _ _ _ _ _ _ _ H2 (S f1)) as H3.
      replace (f2 + S f1)%nat with (S (f1 + f2)) in H3 by lia. exact H3.
Qed.

Lemma wave_loop_same fuel : forall u v, same_wave u v -> forall vl endTime time phase wc last,
  wave_loop fuel u vl endTime time phase wc last = wave_loop fuel v vl endTime time phase wc last.
Proof.
  induction fuel as [|fuel IH]; intros u v Hs *; cbn [wave_loop]; [reflexivity|].
  rewrite (wave_step_same u v) by exact Hs.
  destruct (time <? endTime); [|reflexivity].
  destruct (wave_step v phase wc) as [[[p ph] wc1]|]; [|reflexivity]. cbn [bind].
  destruct (pulse_delta p vl last) as [[d c]|]; [|reflexivity]. cbn [bind].
  rewrite (IH u v Hs). destruct Hs as (_ & _ & _ & _ & _ & ->). reflexivity.
Qed.

Lemma run_wave_same fuel u v vl endTime time phase wc last : same_wave u v ->
  run_wave fuel u vl endTime time phase wc last = run_wave fuel v vl endTime time phase wc last.
Proof.
  intros Hs. unfold run_wave. rewrite (wave_loop_same fuel u v Hs).
  destruct Hs as (-> & _). reflexivity.
Qed.

Lemma run_wave_split f1 f2 u v t1 t2 time phase wc last ta pha wca lpa la tb phb wcb lpb lb :
  0 <= ph_wrap (un_phase u) < 4294967296 -> 0 <= phase ->
  t1 <= t2 ->
  run_wave f1 u v t1 time phase wc last = Ok (ta, pha, wca, lpa, la) ->
  run_wave f2 u v t2 ta pha wca lpa = Ok (tb, phb, wcb, lpb, lb) ->
  run_wave (f1 + f2) u v t2 time phase wc last = Ok (tb, phb, wcb, lpb, la ++ lb).
Proof.
  intros Hw Hph Ht H1 H2. unfold run_wave in *. cbv zeta in *.
  fold (start_phase u phase) in *. fold (start_phase u pha) in H2.
  apply bind_ok in H1. destruct H1 as ([[[[t3 ph3] wc3] lp3] l3] & E1 & H1).
  injection H1 as <- <- <- <- <-.
  apply bind_ok in H2. destruct H2 as ([[[[t4 ph4] wc4] lp4] l4] & E2 & H2).
  injection H2 as <- <- <- <- <-.
  pose proof (wave_loop_raw _ _ _ _ _ _ _ _ _ _ _ _ _ E1) as (raw & Er & _ & _).
  pose proof (u32_range wc) as Hu.
  apply wave_raw_ranges in Er; [|assumption..]. destruct Er as [Hwc3 Hn].
  rewrite u32_s32 in E2 by exact Hwc3.
  assert (Es : start_phase u ph3 = ph3).
  { unfold start_phase. destruct (un_waveform u =? BK_NOISE) eqn:En; [|reflexivity].
    cbn [andb]. destruct (ph3 =? 0) eqn:Ez; [|reflexivity]. exfalso.
    assert (Hs : 0 <= start_phase u phase /\ start_phase u phase <> 0).
    { unfold start_phase. rewrite En. cbn [andb]. destruct (phase =? 0) eqn:Ep; split; lia. }
    destruct (Hn ltac:(lia) (proj1 Hs) (proj2 Hs)). lia. }
  rewrite Es in E2.
  rewrite (wave_loop_split _ _ _ _ _ _ _ _ _ _ _ _ _ _ _ _ _ _ _ _ Ht E1 E2). reflexivity.
Qed.

(** Whether the channels of a unit can be run is a matter of each channel. *)
Lemma wave_channels_each n : forall i fuel u oP oW time endTime r,
  wave_channels n (Z.of_nat i) fuel u oP oW time endTime = Ok r ->
  forall k, (i <= k < i + n)%nat ->
  (k < length (un_volume u))%nat /\
  (vol u k <> 0 -> (k < length (un_lastPulse u))%nat /\
   exists x, run_wave fuel u (vol u k) endTime (un_time u) oP oW (lastp u k) = Ok x).
Proof.
  induction n as [|n IH]; intros * H k Hk; [lia|]. cbn [wave_channels] in H.
  apply bind_ok in H. destruct H as (v & Ev & H).
  pose proof (aget_bounds _ _ _ Ev) as Hb. rewrite (aget_nth _ _ 0) in Ev by exact Hb.
  injection Ev as Ev. rewrite Nat2Z.id in Ev. change (nth i (un_volume u) 0) with (vol u i) in Ev.
  destruct (v =? 0) eqn:Ez.
  - apply bind_ok in H. destruct H as (r1 & E & H).
    replace (Z.of_nat i + 1) with (Z.of_nat (S i)) in E by lia.
    destruct (Nat.eq_dec k i) as [-> |Hne].
    + split; [lia|]. intros. lia.
    + apply (IH _ _ _ _ _ _ _ _ E). lia.
  - apply bind_ok in H. destruct H as (lp0 & El & H).
    pose proof (aget_bounds _ _ _ El) as Hbl. rewrite (aget_nth _ _ 0) in El by exact Hbl.
    injection El as El. rewrite Nat2Z.id in El. change (nth i (un_lastPulse u) 0) with (lastp u i) in El.
    apply bind_ok in H. destruct H as ([[[[t0 ph] wc] lp] pulses] & Er & H).
    ucbn_in H. cbv zeta in H. rewrite aset_ok in H by exact Hbl. cbn [bind] in H. rewrite Nat2Z.id in H.
    apply bind_ok in H. destruct H as (r1 & E & H).
    replace (Z.of_nat i + 1) with (Z.of_nat (S i)) in E by lia.
    destruct (Nat.eq_dec k i) as [-> |Hne].
    + split; [lia|]. intros _. split; [lia|]. rewrite Ev, El. eexists. exact Er.
    + apply IH with (k := k) in E; [|lia].
      match type of E with context [un_volume ?x] => set (u0 := x) in * end.
      assert (Hs : same_wave u0 u) by (repeat split).
      destruct E as [E1 E2]. split; [exact E1|]. intros Hv. destruct (E2 Hv) as (E3 & x & E4).
      split.
      * unfold u0 in E3. ucbn_in E3. rewrite upd_length in E3. exact E3.
      * exists x. rewrite (run_wave_same _ u0 u) in E4 by exact Hs.
        change (un_time u0) with (un_time u) in E4. change (vol u0 k) with (vol u k) in E4.
        replace (lastp u0 k) with (lastp u k) in E4; [exact E4|].
        unfold lastp, u0. ucbn. symmetry. apply nth_upd_neq. lia.
Qed.

Lemma wave_channels_ok n : forall i fuel u oP oW time endTime,
  (forall k, (i <= k < i + n)%nat ->
   (k < length (un_volume u))%nat /\
   (vol u k <> 0 -> (k < length (un_lastPulse u))%nat /\
    exists x, run_wave fuel u (vol u k) endTime (un_time u) oP oW (lastp u k) = Ok x)) ->
  exists r, wave_channels n (Z.of_nat i) fuel u oP oW time endTime = Ok r.
Proof.
  induction n as [|n IH]; intros * H; cbn [wave_channels]; [eauto|].
  destruct (H i ltac:(lia)) as [Hi Hv].
  rewrite (aget_nth _ _ 0) by lia. cbn [bind]. rewrite Nat2Z.id. change (nth i (un_volume u) 0) with (vol u i).
  replace (Z.of_nat i + 1) with (Z.of_nat (S i)) by lia.
  destruct (vol u i =? 0) eqn:Ez.
  - destruct (IH (S i) fuel u oP oW time endTime) as ([[u1 t1] l1] & E).
    { intros k Hk. apply H. lia. }
    rewrite E. cbn [bind]. eauto.
  - destruct (Hv ltac:(lia)) as (Hl & [[[[t0 ph] wc] lp] pulses] & Er).
    rewrite (aget_nth _ _ 0) by lia. cbn [bind]. rewrite Nat2Z.id.
    change (nth i (un_lastPulse u) 0) with (lastp u i). rewrite Er. cbn [bind].
    ucbn. rewrite aset_ok by lia. cbn [bind]. rewrite Nat2Z.id.
    match goal with |- context [wave_channels _ _ _ ?x _ _ _ _] => set (u0 := x) in * end.
    assert (Hs : same_wave u0 u) by (repeat split).
    destruct (IH (S i) fuel u0 oP oW t0 endTime) as ([[u1 t1] l1] & E).
    { intros k Hk. destruct (H k ltac:(lia)) as [H1 H2]. split; [exact H1|]. intros Hvk.
      destruct (H2 Hvk) as (H3 & x & H4). split.
      - unfold u0. ucbn. rewrite upd_length. exact H3.
      - exists x. rewrite (run_wave_same _ u0 u) by exact Hs.
        change (un_time u0) with (un_time u). change (vol u0 k) with (vol u k).
        replace (lastp u0 k) with (lastp u k); [exact H4|].
        unfold lastp, u0. ucbn. symmetry. apply nth_upd_neq. lia. }
    rewrite E. cbn [bind]. eauto.
Qed.
