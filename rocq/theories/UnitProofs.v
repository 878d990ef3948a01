(** Proofs about the waveforms of units. *)
From Verif Require Import CInt CIntFacts DataModel UnitModel UnitSpec.
Ltac Zify.zify_post_hook ::= idtac.

(** Reduction of members of updated units. *)
Ltac ucbn := cbn [un_ctx un_time un_period un_lastPulse un_waveform un_duty un_volume un_mute un_phase
  un_sample un_sustain un_jump un_release ph_phase ph_wrap ph_wrapCount ph_count
  sm_data sm_numChannels sm_length sm_offset sm_end sm_repeatMode sm_repeatCount sm_sustainOffset
  sm_sustainEnd sm_timeFrac sm_period sm_callback sm_frames
  p_phase p_wrapCount p_count set_ctx set_time set_period set_lastPulse set_waveform set_duty set_volume
  set_mute set_ph set_sm set_flags set_phase s_data s_range s_length s_repeatMode s_repeatCount s_sustain
  s_timeFrac s_period s_callback unit_data_state fst snd].
Ltac ucbn_in H := cbn [un_ctx un_time un_period un_lastPulse un_waveform un_duty un_volume un_mute un_phase
  un_sample un_sustain un_jump un_release ph_phase ph_wrap ph_wrapCount ph_count
  sm_data sm_numChannels sm_length sm_offset sm_end sm_repeatMode sm_repeatCount sm_sustainOffset
  sm_sustainEnd sm_timeFrac sm_period sm_callback sm_frames
  p_phase p_wrapCount p_count set_ctx set_time set_period set_lastPulse set_waveform set_duty set_volume
  set_mute set_ph set_sm set_flags set_phase s_data s_range s_length s_repeatMode s_repeatCount s_sustain
  s_timeFrac s_period s_callback unit_data_state fst snd] in H.

(** ** Levels *)

Lemma level_shift p v : Z.shiftr (p * v) BK_VOLUME_SHIFT = level v p.
Proof. unfold level, BK_VOLUME_SHIFT. rewrite shiftr_div by lia. reflexivity. Qed.

Lemma level_frame v p : 0 <= v <= 32767 -> is_frame p -> is_frame (level v p).
Proof.
  unfold is_frame, level. intros Hv Hp. split.
  - apply Z.div_le_lower_bound; [lia|]. nia.
  - apply Z.lt_succ_r. apply Z.div_lt_upper_bound; [lia|]. nia.
Qed.

Lemma pulse_delta_inv p v last d c :
  pulse_delta p v last = Ok (d, c) -> d = level v p /\ c = level v p - last.
Proof.
  unfold pulse_delta. intros H.
  apply bind_ok in H. destruct H as (m & Hm & H). apply chk32_inv in Hm. destruct Hm as [-> Hm].
  cbv zeta in H. rewrite level_shift in H.
  apply bind_ok in H. destruct H as (c' & Hc & H). apply chk32_inv in Hc. destruct Hc as [-> Hc].
  injection H as <- <-. split; reflexivity.
Qed.

Lemma pulse_delta_ok p v last : 0 <= v <= 32767 -> is_frame p -> is_frame last ->
  pulse_delta p v last = Ok (level v p, level v p - last).
Proof.
  intros Hv Hp Hl. unfold pulse_delta.
  assert (-2147483648 <= p * v <= 2147483647) by (unfold is_frame in Hp; nia).
  rewrite chk32_ok by assumption. cbn [bind]. rewrite level_shift.
  pose proof (level_frame v p Hv Hp) as L.
  rewrite chk32_ok by (unfold is_frame in *; lia). reflexivity.
Qed.

Lemma last_level_frame v raw : 0 <= v <= 32767 -> Forall (fun tp => is_frame (snd tp)) raw ->
  forall last, is_frame last -> is_frame (last_level v last raw).
Proof.
  intros Hv H. induction H as [|tp raw Hp H IH]; intros last Hl; [exact Hl|].
  unfold last_level in *. cbn [fold_left]. apply IH. apply level_frame; assumption.
Qed.

(** ** The loop without volume *)

Fixpoint wave_raw (fuel : nat) (u : bkunit) (endTime time phase wrapCount : Z)
  : res (Z * Z * Z * list (Z * Z)) :=
  if time <? endTime then
    match fuel with
    | O => Err EFuel
    | S fuel =>
      let* (pulse, phase, wrapCount) := wave_step u phase wrapCount in
      let* (t, ph, wc, raw) := wave_raw fuel u endTime (u32 (time + un_period u)) phase wrapCount in
      Ok (t, ph, wc, (time, pulse) :: raw)
    end
  else Ok (time, phase, wrapCount, []).

Lemma wave_loop_raw fuel : forall u volume endTime time phase wc last t ph wc' lp l,
  wave_loop fuel u volume endTime time phase wc last = Ok (t, ph, wc', lp, l) ->
  exists raw, wave_raw fuel u endTime time phase wc = Ok (t, ph, wc', raw) /\
    l = chan_deltas volume last raw /\ lp = last_level volume last raw.
Proof.
  induction fuel as [|fuel IH]; intros *; cbn [wave_loop wave_raw]; destruct (time <? endTime); intros H.
  - discriminate.
  - injection H as <- <- <- <- <-. exists []. repeat split.
  - apply bind_ok in H. destruct H as ([[p ph1] wc1] & E1 & H). rewrite E1. cbn [bind].
    apply bind_ok in H. destruct H as ([d c] & E2 & H). apply pulse_delta_inv in E2.
    destruct E2 as [-> ->].
    apply bind_ok in H. destruct H as ([[[[t2 ph2] wc2] lp2] l2] & E3 & H).
    injection H as <- <- <- <- <-.
    apply IH in E3. destruct E3 as (raw & E3 & -> & ->). rewrite E3. cbn [bind].
    exists ((time, p) :: raw). repeat split.
  - injection H as <- <- <- <- <-. exists []. repeat split.
Qed.

Lemma wave_raw_loop fuel : forall u volume endTime time phase wc last t ph wc' raw,
  wave_raw fuel u endTime time phase wc = Ok (t, ph, wc', raw) ->
  0 <= volume <= 32767 -> is_frame last -> Forall (fun tp => is_frame (snd tp)) raw ->
  wave_loop fuel u volume endTime time phase wc last =
    Ok (t, ph, wc', last_level volume last raw, chan_deltas volume last raw).
Proof.
  induction fuel as [|fuel IH]; intros *; cbn [wave_loop wave_raw]; destruct (time <? endTime);
    intros H Hv Hl HF.
  - discriminate.
  - injection H as <- <- <- <-. reflexivity.
  - apply bind_ok in H. destruct H as ([[p ph1] wc1] & E1 & H). rewrite E1. cbn [bind].
    apply bind_ok in H. destruct H as ([[[t2 ph2] wc2] raw2] & E3 & H).
    injection H as <- <- <- <-. inversion HF as [|x y Hp HF2]; subst. cbn [snd] in Hp.
    rewrite pulse_delta_ok by assumption. cbn [bind].
    erewrite IH; try eassumption; [reflexivity|]. apply level_frame; assumption.
  - injection H as <- <- <- <-. reflexivity.
Qed.

(** Units with the same waveform and period. *)
Definition same_wave (u v : bkunit) : Prop :=
  un_waveform u = un_waveform v /\ un_duty u = un_duty v /\
  ph_wrap (un_phase u) = ph_wrap (un_phase v) /\ ph_count (un_phase u) = ph_count (un_phase v) /\
  sm_frames (un_sample u) = sm_frames (un_sample v) /\ un_period u = un_period v.

Lemma wave_step_same u v phase wc : same_wave u v -> wave_step u phase wc = wave_step v phase wc.
Proof.
  intros (H1 & H2 & H3 & H4 & H5 & H6). unfold wave_step. rewrite H1, H2, H3, H4, H5. reflexivity.
Qed.

Lemma wave_raw_same fuel : forall u v, same_wave u v -> forall endTime time phase wc,
  wave_raw fuel u endTime time phase wc = wave_raw fuel v endTime time phase wc.
Proof.
  induction fuel as [|fuel IH]; intros u v Hs *; cbn [wave_raw]; [reflexivity|].
  rewrite (wave_step_same u v) by exact Hs.
  destruct (time <? endTime); [|reflexivity].
  destruct (wave_step v phase wc) as [[[p ph] wc1]|]; [|reflexivity]. cbn [bind].
  rewrite (IH u v Hs). destruct Hs as (_ & _ & _ & _ & _ & ->). reflexivity.
Qed.

Lemma wave_raw_fuel fuel : forall u endTime time phase wc r, wave_raw fuel u endTime time phase wc = Ok r ->
  forall more, wave_raw (fuel + more) u endTime time phase wc = Ok r.
Proof.
  induction fuel as [|fuel IH]; intros * H more.
  - cbn [wave_raw] in H. destruct more; cbn [Nat.add wave_raw]; destruct (time <? endTime); congruence.
  - cbn [Nat.add wave_raw] in *. destruct (time <? endTime); [|exact H].
    apply bind_ok in H. destruct H as ([[p ph1] wc1] & E1 & H). rewrite E1. cbn [bind].
    apply bind_ok in H. destruct H as ([[[t2 ph2] wc2] raw2] & E3 & H).
    rewrite (IH _ _ _ _ _ _ E3 more). exact H.
Qed.

(** With the start of the noise generator and the type of the wrap count. *)
Definition start_phase (u : bkunit) (phase : Z) : Z :=
  if (un_waveform u =? BK_NOISE) && (phase =? 0) then 19009 else phase.
Definition run_raw (fuel : nat) (u : bkunit) (endTime time phase wrapCount : Z)
  : res (Z * Z * Z * list (Z * Z)) :=
  let* (t, ph, wc, raw) := wave_raw fuel u endTime time (start_phase u phase) (u32 wrapCount) in
  Ok (t, ph, s32 wc, raw).

Lemma run_wave_raw fuel u volume endTime time phase wc last t ph wc' lp l :
  run_wave fuel u volume endTime time phase wc last = Ok (t, ph, wc', lp, l) ->
  exists raw, run_raw fuel u endTime time phase wc = Ok (t, ph, wc', raw) /\
    l = chan_deltas volume last raw /\ lp = last_level volume last raw.
Proof.
  unfold run_wave, run_raw. cbv zeta. fold (start_phase u phase). intros H.
  apply bind_ok in H. destruct H as ([[[[t2 ph2] wc2] lp2] l2] & E & H).
  injection H as <- <- <- <- <-. apply wave_loop_raw in E. destruct E as (raw & E & -> & ->).
  exists raw. rewrite E. repeat split.
Qed.

Lemma run_raw_wave fuel u volume endTime time phase wc last t ph wc' raw :
  run_raw fuel u endTime time phase wc = Ok (t, ph, wc', raw) ->
  0 <= volume <= 32767 -> is_frame last -> Forall (fun tp => is_frame (snd tp)) raw ->
  run_wave fuel u volume endTime time phase wc last =
    Ok (t, ph, wc', last_level volume last raw, chan_deltas volume last raw).
Proof.
  unfold run_wave, run_raw. cbv zeta. fold (start_phase u phase). intros H Hv Hl HF.
  apply bind_ok in H. destruct H as ([[[t2 ph2] wc2] raw2] & E & H).
  injection H as <- <- <- <-. erewrite wave_raw_loop by eassumption. reflexivity.
Qed.

Lemma run_raw_same fuel u v endTime time phase wc : same_wave u v ->
  run_raw fuel u endTime time phase wc = run_raw fuel v endTime time phase wc.
Proof.
  intros Hs. unfold run_raw, start_phase. rewrite (wave_raw_same fuel u v Hs).
  destruct Hs as (-> & _). reflexivity.
Qed.

(** ** All channels *)

Definition vol (u : bkunit) (k : nat) : Z := nth k (un_volume u) 0.
Definition lastp (u : bkunit) (k : nat) : Z := nth k (un_lastPulse u) 0.

(** The state after a run of the waveform. *)
Definition ran (u : bkunit) (ph wc : Z) (last : list Z) : bkunit :=
  set_lastPulse (set_ph u (p_wrapCount (p_phase (un_phase u) ph) wc)) last.

Lemma wave_channels_char n : forall i fuel u oP oW time endTime u' t ls,
  wave_channels n (Z.of_nat i) fuel u oP oW time endTime = Ok (u', t, ls) ->
  exists m : option (Z * Z * Z * list (Z * Z)),
    let raw := match m with Some (_, _, _, raw) => raw | None => [] end in
    match m with
    | None => (forall k, (i <= k < i + n)%nat -> vol u k = 0) /\ u' = u /\ t = time
    | Some (t0, ph, wc, raw) =>
      run_raw fuel u endTime (un_time u) oP oW = Ok (t0, ph, wc, raw) /\
      (exists k, (i <= k < i + n)%nat /\ vol u k <> 0) /\
      t = t0 /\ u' = ran u ph wc (un_lastPulse u')
    end /\
    length ls = n /\
    length (un_lastPulse u') = length (un_lastPulse u) /\
    (forall k, lastp u' k = if (i <=? k)%nat && (k <? i + n)%nat && negb (vol u k =? 0)
                            then last_level (vol u k) (lastp u k) raw else lastp u k) /\
    (forall k, (k < n)%nat ->
       nth k ls [] = if vol u (i + k) =? 0 then [] else chan_deltas (vol u (i + k)) (lastp u (i + k)) raw).
Proof.
  induction n as [|n IH]; intros * H; cbn [wave_channels] in H.
  - injection H as <- <- <-. exists None. cbv zeta. split; [|split; [|split; [|split]]]; auto.
    + split; [intros; lia|]. split; reflexivity.
    + intros k. replace ((i <=? k)%nat && (k <? i + 0)%nat) with false by lia. reflexivity.
    + intros k Hk. lia.
  - apply bind_ok in H. destruct H as (v & Ev & H).
    pose proof (aget_bounds _ _ _ Ev) as Hb. rewrite (aget_nth _ _ 0) in Ev by exact Hb.
    injection Ev as Ev. rewrite Nat2Z.id in Ev. change (nth i (un_volume u) 0) with (vol u i) in Ev.
    destruct (v =? 0) eqn:Ez.
    + apply bind_ok in H. destruct H as ([[u1 t1] l1] & E & H). injection H as <- <- <-.
      replace (Z.of_nat i + 1) with (Z.of_nat (S i)) in E by lia.
      apply IH in E. destruct E as (m & Hm & Hlen & Hll & Hlast & Hnth).
      exists m. cbv zeta in *. split; [|split; [|split; [|split]]].
      * destruct m as [[[[t0 ph] wc] raw]|].
        -- destruct Hm as (R & (k & Hk & Hk2) & -> & Hu). split; [exact R|]. split; [|split; auto].
           exists k. split; [lia|exact Hk2].
        -- destruct Hm as (Hz & -> & ->). split; [|auto]. intros k Hk.
           destruct (Nat.eq_dec k i) as [-> |Hne]; [lia|]. apply Hz. lia.
      * cbn [length]. lia.
      * exact Hll.
      * intros k. rewrite Hlast. destruct (Nat.eq_dec k i) as [-> |Hne].
        -- replace ((S i <=? i)%nat) with false by lia. replace (vol u i =? 0) with true by lia.
           rewrite !andb_false_r. reflexivity.
        -- replace ((S i <=? k)%nat && (k <? S i + n)%nat) with ((i <=? k)%nat && (k <? i + S n)%nat) by lia.
           reflexivity.
      * intros [|k] Hk; cbn [nth].
        -- rewrite Nat.add_0_r. replace (vol u i =? 0) with true by lia. reflexivity.
        -- rewrite Hnth by lia. replace (S i + k)%nat with (i + S k)%nat by lia. reflexivity.
    + apply bind_ok in H. destruct H as (lp0 & El & H).
      pose proof (aget_bounds _ _ _ El) as Hbl. rewrite (aget_nth _ _ 0) in El by exact Hbl.
      injection El as El. rewrite Nat2Z.id in El. change (nth i (un_lastPulse u) 0) with (lastp u i) in El.
      apply bind_ok in H. destruct H as ([[[[t0 ph] wc] lp] pulses] & Er & H).
      apply run_wave_raw in Er. destruct Er as (raw & Er & -> & ->).
      ucbn_in H. cbv zeta in H. rewrite aset_ok in H by exact Hbl. cbn [bind] in H. rewrite Nat2Z.id in H.
      apply bind_ok in H. destruct H as ([[u1 t1] l1] & E & H). injection H as <- <- <-.
      replace (Z.of_nat i + 1) with (Z.of_nat (S i)) in E by lia.
      match type of E with wave_channels _ _ _ ?x _ _ _ _ = _ => set (u0 := x) in * end.
      assert (Hs : same_wave u0 u) by (repeat split).
      assert (Hvol : forall k, vol u0 k = vol u k) by reflexivity.
      assert (Hlp : forall k, lastp u0 k = if (k =? i)%nat then last_level v lp0 raw else lastp u k).
      { intros k. unfold lastp, u0. ucbn. destruct (Nat.eqb_spec k i) as [-> |Hne].
        - apply nth_upd_eq. lia.
        - apply nth_upd_neq. lia. }
      apply IH in E. destruct E as (m & Hm & Hlen & Hll & Hlast & Hnth).
      cbv zeta in *.
      assert (Hraw : forall k, (S i <= k < S i + n)%nat -> vol u k <> 0 ->
                match m with Some (_, _, _, raw) => raw | None => [] end = raw).
      { intros k Hk Hk2. destruct m as [[[[t2 ph2] wc2] raw2]|].
        - destruct Hm as (R & _). rewrite (run_raw_same _ u0 u) in R by exact Hs.
          change (un_time u0) with (un_time u) in R. rewrite R in Er. injection Er as <- <- <- <-. reflexivity.
        - destruct Hm as (Hz & _). specialize (Hz k Hk). rewrite Hvol in Hz. contradiction. }
      exists (Some (t0, ph, wc, raw)). split; [|split; [|split; [|split]]].
      * split; [exact Er|]. split; [exists i; split; lia|].
        destruct m as [[[[t2 ph2] wc2] raw2]|].
        -- destruct Hm as (R & _ & -> & Hu). rewrite (run_raw_same _ u0 u) in R by exact Hs.
           change (un_time u0) with (un_time u) in R. rewrite R in Er. injection Er as <- <- <- <-.
           split; [reflexivity|]. rewrite Hu at 1. reflexivity.
        -- destruct Hm as (_ & -> & ->). split; [reflexivity|]. reflexivity.
      * cbn [length]. lia.
      * rewrite Hll. unfold u0. ucbn. apply upd_length.
      * intros k. rewrite Hlast, Hvol, Hlp. destruct (Nat.eqb_spec k i) as [-> |Hne].
        -- replace ((S i <=? i)%nat) with false by lia. cbn [andb].
           replace ((i <=? i)%nat && (i <? i + S n)%nat && negb (vol u i =? 0)) with true by lia.
           rewrite Ev, El. reflexivity.
        -- replace ((i <=? k)%nat && (k <? i + S n)%nat) with ((S i <=? k)%nat && (k <? S i + n)%nat) by lia.
           destruct ((S i <=? k)%nat && (k <? S i + n)%nat && negb (vol u k =? 0)) eqn:Ec; [|reflexivity].
           rewrite (Hraw k) by lia. reflexivity.
      * intros [|k] Hk; cbn [nth].
        -- rewrite Nat.add_0_r. replace (vol u i =? 0) with false by lia. rewrite Ev, El. reflexivity.
        -- rewrite Hnth by lia. rewrite Hvol, Hlp. replace (S i + k)%nat with (i + S k)%nat by lia.
           replace (i + S k =? i)%nat with false by lia.
           destruct (vol u (i + S k) =? 0) eqn:Ek; [reflexivity|].
           rewrite (Hraw (i + S k)%nat) by lia. reflexivity.
Qed.
