(** A unit that is used carefully stays in a state in which it can be run. *)
From Verif Require Import CInt CIntFacts DataModel UnitModel UnitSpec UnitProofs UnitProofs2 UnitProofs3.
Ltac Zify.zify_post_hook ::= idtac.

(** ** Wave tables *)

Definition frame_b (v : Z) : bool := (-32768 <=? v) && (v <=? 32767).
Lemma frames_check l : forallb frame_b l = true -> Forall is_frame l.
Proof.
  intros H. rewrite forallb_forall in H. apply Forall_forall. intros x Hx. specialize (H x Hx).
  unfold frame_b in H. unfold is_frame. lia.
Qed.

Lemma aget_frame l i : Forall is_frame l -> 0 <= i < Z.of_nat (length l) ->
  exists v, aget l i = Ok v /\ is_frame v.
Proof.
  intros H Hi. rewrite (aget_nth _ _ 0) by exact Hi. eexists. split; [reflexivity|].
  rewrite Forall_forall in H. apply H. apply nth_In. lia.
Qed.

Lemma square_row d : 1 <= d <= 15 -> exists row, aget squarePhases d = Ok row /\ length row = 16%nat /\
  Forall is_frame row.
Proof.
  intros H. rewrite (aget_nth _ _ []) by (change (Z.of_nat (length squarePhases)) with 17; lia).
  eexists. split; [reflexivity|].
  assert (C : forallb (fun row => (length row =? 16)%nat && forallb frame_b row) squarePhases = true) by reflexivity.
  rewrite forallb_forall in C.
  specialize (C (nth (Z.to_nat d) squarePhases [])).
  assert (I : In (nth (Z.to_nat d) squarePhases []) squarePhases).
  { apply nth_In. change (length squarePhases) with 17%nat. lia. }
  specialize (C I). apply andb_true_iff in C. destruct C as [C1 C2]. split; [lia|].
  apply frames_check. exact C2.
Qed.

Lemma land_mod v k : 0 <= k -> Z.land v (2 ^ k - 1) = v mod 2 ^ k.
Proof. intros. rewrite <- Z.land_ones by lia. rewrite Z.ones_equiv. reflexivity. Qed.

Lemma next_phase phase n k : n = 2 ^ k -> 0 <= k <= 10 -> 0 <= phase < n ->
  0 <= Z.land (u32 (phase + 1)) (n - 1) < n.
Proof.
  intros -> Hk H.
  assert (2 ^ k <= 2 ^ 10) by (apply Z.pow_le_mono_r; lia). change (2 ^ 10) with 1024 in *.
  rewrite u32_id by lia. rewrite land_mod by lia. apply Z.mod_pos_bound. lia.
Qed.

Lemma noise_step_range phase : 0 <= phase < 65536 -> 0 <= fst (noise_step phase) < 65536 /\ is_frame (snd (noise_step phase)).
Proof.
  intros H. unfold noise_step. cbn [fst snd]. set (b := Z.land _ 1).
  assert (Hb : b = 0 \/ b = 1).
  { unfold b. rewrite Z.land_comm. change (Z.land 1) with (Z.land (Z.ones 1)). rewrite Z.land_comm, Z.land_ones by lia.
    match goal with |- ?x mod _ = _ \/ _ => pose proof (Z.mod_pos_bound x (2 ^ 1) ltac:(lia)) end. lia. }
  assert (Hu : u32 (Z.shiftl b 15) = b * 32768).
  { rewrite Z.shiftl_mul_pow2 by lia. change (2 ^ 15) with 32768. apply u32_id. lia. }
  rewrite Hu. rewrite shiftr_div by lia. change (2 ^ 1) with 2.
  assert (Hd : 0 <= phase / 2 < 32768).
  { split; [apply Z.div_pos; lia|apply Z.div_lt_upper_bound; lia]. }
  clearbody b. split.
  - assert (N : 0 <= Z.lor (phase / 2) (b * 32768)) by (apply Z.lor_nonneg; lia).
    split; [exact N|].
    destruct (Z.eq_dec (Z.lor (phase / 2) (b * 32768)) 0) as [-> |Hz]; [lia|].
    apply Z.log2_lt_cancel. change (Z.log2 65536) with 16.
    rewrite Z.log2_lor by lia.
    assert (Z.log2 (phase / 2) < 16).
    { apply Z.le_lt_trans with (m := Z.log2 32767); [apply Z.log2_le_mono; lia|reflexivity]. }
    assert (Z.log2 (b * 32768) < 16) by (destruct Hb as [-> | ->]; reflexivity).
    lia.
  - unfold is_frame, BK_MAX_VOLUME. destruct (b =? 0); cbn; lia.
Qed.

Lemma wave_step_good u phase wc : table_good u -> phase_good u phase ->
  exists p ph' wc', wave_step u phase wc = Ok (p, ph', wc') /\ is_frame p /\ phase_good u ph'.
Proof.
  intros [Hd Hc] [H0 Hp]. unfold wave_step, phase_good.
  destruct (un_waveform u =? BK_SQUARE) eqn:E1.
  { apply Z.eqb_eq in E1. rewrite E1 in *. change (wave_length BK_SQUARE) with 16 in *.
    assert (phase < 16) by (destruct Hp as [[Hp _]|[[Hp _]|Hp]]; [discriminate|discriminate|lia]).
    rewrite s32_id by lia. destruct (square_row _ Hd) as (row & -> & Hl & Hf). cbn [bind].
    destruct (aget_frame row phase Hf) as (v & -> & Hv); [rewrite Hl; lia|]. cbn [bind].
    pose proof (next_phase phase 16 4 eq_refl ltac:(lia) ltac:(lia)) as N.
    change BK_SQUARE_PHASES with 16.
    exists v, (Z.land (u32 (phase + 1)) (16 - 1)), wc. split; [reflexivity|]. split; [exact Hv|].
    split; [lia|]. right; right. lia. }
  destruct (un_waveform u =? BK_TRIANGLE) eqn:E2.
  { apply Z.eqb_eq in E2. rewrite E2 in *. change (wave_length BK_TRIANGLE) with 32 in *.
    assert (phase < 32) by (destruct Hp as [[Hp _]|[[Hp _]|Hp]]; [discriminate|discriminate|lia]).
    destruct (aget_frame trianglePhases phase) as (v & -> & Hv);
      [apply frames_check; reflexivity|change (Z.of_nat (length trianglePhases)) with 32; lia|]. cbn [bind].
    pose proof (next_phase phase 32 5 eq_refl ltac:(lia) ltac:(lia)) as N.
    change BK_TRIANGLE_PHASES with 32.
    exists v, (Z.land (u32 (phase + 1)) (32 - 1)), wc. split; [reflexivity|]. split; [exact Hv|].
    split; [lia|]. right; right. lia. }
  destruct (un_waveform u =? BK_NOISE) eqn:E3.
  { apply Z.eqb_eq in E3. rewrite E3 in *. change (wave_length BK_NOISE) with 0 in *.
    assert (phase < 65536) by (destruct Hp as [[_ Hp]|[[Hp _]|Hp]]; [lia|discriminate|lia]).
    destruct (wrap_step _ _ _ _) as [wc1 ph1] eqn:Ew.
    assert (Hph1 : 0 <= ph1 < 65536).
    { unfold wrap_step in Ew. destruct (negb _); [destruct (_ <=? 0)|]; injection Ew as <- <-; lia. }
    pose proof (noise_step_range ph1 Hph1) as [N1 N2].
    destruct (noise_step ph1) as [ph2 q] eqn:En. cbn [fst snd] in N1, N2.
    exists q, ph2, wc1. split; [reflexivity|]. split; [exact N2|]. split; [lia|]. left. lia. }
  destruct (un_waveform u =? BK_SAWTOOTH) eqn:E4.
  { apply Z.eqb_eq in E4. rewrite E4 in *. change (wave_length BK_SAWTOOTH) with 7 in *.
    assert (phase < 7) by (destruct Hp as [[Hp _]|[[Hp _]|Hp]]; [discriminate|discriminate|lia]).
    destruct (aget_frame sawtoothPhases phase) as (v & -> & Hv);
      [apply frames_check; reflexivity|change (Z.of_nat (length sawtoothPhases)) with 7; lia|]. cbn [bind].
    cbv zeta. rewrite u32_id by lia. change BK_SAWTOOTH_PHASES with 7.
    eexists _, _, _. split; [reflexivity|]. split; [exact Hv|].
    destruct (phase + 1 >=? 7) eqn:Eg; (split; [lia|]); right; right; lia. }
  destruct (un_waveform u =? BK_SINE) eqn:E5.
  { apply Z.eqb_eq in E5. rewrite E5 in *. change (wave_length BK_SINE) with 32 in *.
    assert (phase < 32) by (destruct Hp as [[Hp _]|[[Hp _]|Hp]]; [discriminate|discriminate|lia]).
    destruct (aget_frame sinePhases phase) as (v & -> & Hv);
      [apply frames_check; reflexivity|change (Z.of_nat (length sinePhases)) with 32; lia|]. cbn [bind].
    pose proof (next_phase phase 32 5 eq_refl ltac:(lia) ltac:(lia)) as N.
    change BK_SINE_PHASES with 32.
    exists (Z.quot v 2), (Z.land (u32 (phase + 1)) (32 - 1)), wc. split; [reflexivity|]. split.
    - unfold is_frame in *. Z.quot_rem_to_equations. lia.
    - split; [lia|]. right; right. lia. }
  assert (Ec : un_waveform u = BK_CUSTOM).
  { destruct Hp as [[Hp _]|[[Hp _]|Hp]]; [lia|exact Hp|].
    unfold wave_length in Hp. rewrite E1, E2, E4, E5 in Hp. lia. }
  destruct (Hc Ec) as (Hcount & frames & Ef & Hlen & HF). rewrite Ec in *.
  change (wave_length BK_CUSTOM) with 0 in *.
  assert (phase < ph_count (un_phase u)) by (destruct Hp as [[Hp _]|[[_ Hp]|Hp]]; [discriminate|exact Hp|lia]).
  destruct (wrap_step _ _ _ _) as [wc1 ph1] eqn:Ew.
  assert (Hph1 : 0 <= ph1 < ph_count (un_phase u)).
  { unfold wrap_step in Ew. destruct (negb _); [destruct (_ <=? 0)|]; injection Ew as <- <-; lia. }
  rewrite Ef. destruct (aget_frame frames (0 + ph1) HF ltac:(lia)) as (v & -> & Hv). cbn [bind].
  cbv zeta. rewrite u32_id by lia.
  eexists _, _, _. split; [reflexivity|]. split; [exact Hv|].
  destruct (ph1 + 1 >=? ph_count (un_phase u)) eqn:Eg; (split; [lia|]); right; left; lia.
Qed.

Lemma start_good u phase : phase_good u phase -> phase_good u (start_phase u phase).
Proof.
  intros H. unfold start_phase. destruct (_ && _) eqn:E; [|exact H].
  split; [lia|]. left. lia.
Qed.

Lemma wave_raw_ok fuel : forall u endTime time phase wc,
  table_good u -> phase_good u phase -> 1 <= un_period u -> 0 <= time < 4294967296 ->
  endTime + un_period u < 4294967296 -> endTime - time <= Z.of_nat fuel ->
  exists t ph wc' raw, wave_raw fuel u endTime time phase wc = Ok (t, ph, wc', raw) /\
    phase_good u ph /\ Forall (fun tp => is_frame (snd tp)) raw /\ 0 <= t < 4294967296 /\
    Forall (fun tp => time <= fst tp < endTime) raw.
Proof.
  induction fuel as [|fuel IH]; intros * HT HP Hper Ht He Hf; cbn [wave_raw]; destruct (time <? endTime) eqn:Et.
  - lia.
  - exists time, phase, wc, []. repeat split; auto; try lia; apply HP.
  - destruct (wave_step_good u phase wc HT HP) as (p & ph1 & wc1 & -> & Hp & HP1). cbn [bind].
    rewrite u32_id by lia.
    destruct (IH u endTime (time + un_period u) ph1 wc1 HT HP1 Hper ltac:(lia) He ltac:(lia))
      as (t & ph & wc' & raw & -> & HP2 & HF & Htt & HT2). cbn [bind].
    exists t, ph, wc', ((time, p) :: raw). split; [reflexivity|]. split; [exact HP2|].
    split; [constructor; assumption|]. split; [exact Htt|].
    constructor; [cbn [fst]; lia|]. eapply Forall_impl; [|exact HT2]. cbn. intros. lia.
  - exists time, phase, wc, []. repeat split; auto; try lia; apply HP.
Qed.

(** ** Well-formedness under changes *)

Ltac wf_destruct H := destruct H as [Wvol Wlast Wctx Wtime Wperiod Wwrap Wmute Wphase Wcount Wdata Wfrac Wsper
  Wmode Wrcount Wlength Wrange Wsrange Wduty Wwave Wphases].
Ltac sg_destruct H := destruct H as [Sframes Schan Sctx Sdata Slen Sphase Ssus].

Lemma wf_ran u ph wc last : unit_wf u -> 0 <= ph < 4294967296 -> -2147483648 <= wc < 2147483648 ->
  length last = 8%nat -> Forall is_frame last -> unit_wf (ran u ph wc last).
Proof. intros W Hp Hw Hl HF. wf_destruct W. destruct Wwrap. unfold ran. constructor; ucbn; auto. Qed.

Lemma wf_time_set u t : unit_wf u -> 0 <= t < 4294967296 -> unit_wf (set_time u t).
Proof. intros W Ht. wf_destruct W. constructor; ucbn; auto. Qed.

Lemma good_time u t : sample_good u -> sample_good (set_time u t).
Proof. intros G. sg_destruct G. constructor; ucbn; auto. Qed.

Lemma table_time u t : table_good u -> table_good (set_time u t).
Proof. intros G. exact G. Qed.

Lemma phase_good_range u ph : unit_wf u -> phase_good u ph -> 0 <= ph < 65536.
Proof.
  intros W [H0 [[_ H]|[[_ H]|H]]]; wf_destruct W; [lia|lia|].
  unfold wave_length in H. repeat destruct (_ =? _) in H; lia.
Qed.

Lemma vol_range u k : unit_wf u -> 0 <= vol u k <= 32767.
Proof.
  intros W. wf_destruct W. destruct Wvol as [L F]. unfold vol.
  destruct (Nat.lt_ge_cases k (length (un_volume u))) as [H|H].
  - rewrite Forall_forall in F. apply F. apply nth_In. exact H.
  - rewrite nth_overflow by exact H. lia.
Qed.

Lemma lastp_frame u k : unit_wf u -> is_frame (lastp u k).
Proof.
  intros W. wf_destruct W. destruct Wlast as [L F]. unfold lastp.
  destruct (Nat.lt_ge_cases k (length (un_lastPulse u))) as [H|H].
  - rewrite Forall_forall in F. apply F. apply nth_In. exact H.
  - rewrite nth_overflow by exact H. unfold is_frame. lia.
Qed.

Lemma frames_nth l : (forall k, is_frame (nth k l 0)) -> Forall is_frame l.
Proof.
  intros H. apply Forall_forall. intros x Hx. apply (In_nth _ _ 0) in Hx.
  destruct Hx as (k & _ & <-). apply H.
Qed.

(** A waveform can be run from a safe state, and leaves a safe state. *)
Lemma run_waveform_safe fuel u n t :
  unit_wf u -> table_good u -> phase_good u (ph_phase (un_phase u)) -> 1 <= un_period u ->
  1 <= n <= 8 -> 0 <= t -> t + un_period u < 4294967296 -> t + 1000 <= Z.of_nat fuel ->
  exists u' t' l, BKUnitRunWaveform fuel u n t = Ok (u', t', l) /\
    unit_wf u' /\ table_good u' /\ phase_good u' (ph_phase (un_phase u')) /\ 0 <= t' < 4294967296 /\
    un_waveform u' = un_waveform u /\ un_ctx u' = un_ctx u.
Proof.
  intros W T P Hper Hn Ht Hte Hf. unfold BKUnitRunWaveform.
  destruct (negb (un_mute u =? 0)).
  { exists u, 0, (repeat [] (Z.to_nat n)). split; [reflexivity|]. split; [exact W|]. split; [exact T|].
    split; [exact P|]. split; [lia|]. split; reflexivity. }
  assert (Wt : 0 <= un_time u < 4294967296) by apply W.
  destruct (wave_raw_ok fuel u t (un_time u) (start_phase u (ph_phase (un_phase u)))
              (u32 (ph_wrapCount (un_phase u))) T (start_good _ _ P) Hper Wt Hte ltac:(lia))
    as (t0 & ph & wc & raw & R & HP & HF & Ht0 & _).
  assert (RR : run_raw fuel u t (un_time u) (ph_phase (un_phase u)) (ph_wrapCount (un_phase u)) =
               Ok (t0, ph, s32 wc, raw)) by (unfold run_raw; rewrite R; reflexivity).
  destruct (wave_channels_ok (Z.to_nat n) 0 fuel u (ph_phase (un_phase u)) (ph_wrapCount (un_phase u)) 0 t)
    as ([[u' t'] l] & E).
  { intros k Hk. pose proof W as W'. wf_destruct W'. destruct Wvol as [L1 _]. destruct Wlast as [L2 _].
    split; [lia|]. intros _. split; [lia|]. eexists. eapply run_raw_wave; try eassumption.
    - apply vol_range. exact W.
    - apply lastp_frame. exact W. }
  cbn [Z.of_nat] in E. rewrite E. exists u', t', l. split; [reflexivity|].
  change 0 with (Z.of_nat 0) in E at 1. apply wave_channels_char in E.
  destruct E as (m & C & L & LL & Pn & N). cbv zeta in *.
  destruct m as [[[[t1 ph1] wc1] raw1]|].
  - destruct C as (R1 & _ & -> & Hu). rewrite RR in R1. injection R1 as <- <- <- <-.
    assert (F' : Forall is_frame (un_lastPulse u')).
    { apply frames_nth. intros k. fold (lastp u' k). rewrite Pn. destruct (_ && _ && _).
      - apply last_level_frame; [apply vol_range; exact W|exact HF|apply lastp_frame; exact W].
      - apply lastp_frame. exact W. }
    rewrite Hu. split; [|split; [exact T|split; [exact HP|split; [exact Ht0|split; reflexivity]]]].
    apply wf_ran; auto.
    + pose proof (phase_good_range u ph W HP). lia.
    + pose proof (s32_range wc). lia.
    + rewrite LL. apply W.
  - destruct C as (_ & -> & ->). split; [exact W|]. split; [exact T|]. split; [exact P|].
    split; [lia|]. split; reflexivity.
Qed.

(** ** Samples *)

Lemma wrap_down_ok fuel : forall phase len, 2 <= len <= 1073741824 -> 0 <= phase < 2147483648 ->
  phase < len * (Z.of_nat fuel + 1) ->
  exists r, wrap_down fuel phase len len = Ok r /\ 0 <= r < len /\ (phase < len -> r = phase).
Proof.
  induction fuel as [|fuel IH]; intros * Hl Hp Hf; cbn [wrap_down]; rewrite s32_id by lia;
    destruct (phase >=? len) eqn:E.
  - nia.
  - exists phase. split; [reflexivity|]. split; [lia|reflexivity].
  - rewrite u32_id by lia. destruct (IH (phase - len) len Hl ltac:(lia) ltac:(nia)) as (r & -> & Hr & _).
    exists r. split; [reflexivity|]. split; [lia|]. lia.
  - exists phase. split; [reflexivity|]. split; [lia|reflexivity].
Qed.

Lemma s32_u32_any z : -2147483648 <= z <= 2147483647 -> s32 (u32 z) = z.
Proof. apply s32_u32. Qed.

Lemma u32_add_l a b : u32 (u32 a + b) = u32 (a + b).
Proof. unfold u32. apply Zplus_mod_idemp_l. Qed.

Lemma wrap_up_ok fuel : forall z len, 2 <= len <= 1073741824 -> -1000 <= z < len ->
  - z <= len * Z.of_nat fuel ->
  exists r, wrap_up fuel (u32 z) 0 len = Ok r /\ 0 <= r < len /\ (0 <= z -> r = z) /\
    (- len < z < 0 -> r = z + len).
Proof.
  induction fuel as [|fuel IH]; intros * Hl Hz Hf; cbn [wrap_up]; rewrite s32_u32 by lia;
    destruct (z <? 0) eqn:E.
  - nia.
  - exists (u32 z). rewrite u32_id by lia. split; [reflexivity|]. lia.
  - rewrite u32_add_l. destruct (IH (z + len) len Hl ltac:(lia) ltac:(nia)) as (r & -> & Hr & H1 & H2).
    exists r. split; [reflexivity|]. split; [exact Hr|]. split; [lia|]. intros. apply H1. lia.
  - exists (u32 z). rewrite u32_id by lia. split; [reflexivity|]. lia.
Qed.

(** What the loop relies on. *)
Record playing (u : bkunit) : Prop := mk_playing {
  pl_wf : unit_wf u;
  pl_good : sample_good u;
  pl_len : 2 <= sm_length (un_sample u);
  pl_pal : sm_repeatMode (un_sample u) = BK_PALINDROME ->
           Z.abs (sm_period (un_sample u)) <= (sm_length (un_sample u) - 1) * 1048576
}.

(** Members of the sample and the phase that the loop changes. *)
Definition moved (u : bkunit) (phase frac period count mute : Z) : bkunit :=
  set_mute (set_phase (set_sm u (s_repeatCount (s_period (s_timeFrac (un_sample u) frac) period) count)) phase) mute.

Lemma moved_playing u phase frac period count mute : playing u ->
  0 <= phase < sm_length (un_sample u) -> 0 <= frac < 1048576 ->
  Z.abs period = Z.abs (sm_period (un_sample u)) -> 0 <= count < 4294967296 -> (mute = 0 \/ mute = 1) ->
  playing (moved u phase frac period count mute).
Proof.
  intros [W G L Pl] Hp Hf Hper Hc Hm. pose proof W as W'. pose proof G as G'. wf_destruct W. sg_destruct G.
  unfold moved. constructor.
  - constructor; ucbn; auto; try lia.
  - constructor; ucbn; auto. intros. lia.
  - exact L.
  - ucbn. intros E. rewrite Hper. apply Pl. exact E.
Qed.

Lemma last_playing u last : playing u -> length last = 8%nat -> Forall is_frame last -> playing (set_lastPulse u last).
Proof.
  intros [W G L Pl] Hl HF. wf_destruct W. sg_destruct G. constructor; [| |exact L|exact Pl].
  - constructor; ucbn; auto.
  - constructor; ucbn; auto.
Qed.

Lemma upd_frames l k v : Forall is_frame l -> is_frame v -> Forall is_frame (upd l k v).
Proof.
  intros H Hv. revert k. induction H as [|x l Hx H IH]; intros [|k]; cbn [upd]; constructor; auto.
Qed.

Lemma sample_channels_ok n : forall i u idx frames base,
  sm_frames (un_sample u) = Some (frames, base) -> Forall is_frame frames ->
  0 <= i -> i + Z.of_nat n <= 8 ->
  (forall k, i <= k < i + Z.of_nat n ->
   0 <= base + idx + (if sm_numChannels (un_sample u) =? 1 then 0 else k) < Z.of_nat (length frames)) ->
  length (un_volume u) = 8%nat -> Forall (fun v => 0 <= v <= 32767) (un_volume u) ->
  length (un_lastPulse u) = 8%nat -> Forall is_frame (un_lastPulse u) ->
  exists last d, sample_channels n i u idx = Ok (last, d) /\ length last = 8%nat /\ Forall is_frame last /\
    length d = n.
Proof.
  induction n as [|n IH]; intros * Ef HF Hi Hn Hb Lv Fv Ll Fl; cbn [sample_channels].
  - exists (un_lastPulse u), []. auto.
  - rewrite Ef. rewrite (aget_nth _ _ 0) by lia. cbn [bind].
    destruct (aget_frame frames (base + idx + (if sm_numChannels (un_sample u) =? 1 then 0 else i)) HF)
      as (p & -> & Hp); [apply Hb; lia|]. cbn [bind].
    rewrite (aget_nth _ _ 0) by lia. cbn [bind].
    assert (Hv : 0 <= nth (Z.to_nat i) (un_volume u) 0 <= 32767).
    { rewrite Forall_forall in Fv. apply Fv. apply nth_In. lia. }
    assert (Hl : is_frame (nth (Z.to_nat i) (un_lastPulse u) 0)).
    { rewrite Forall_forall in Fl. apply Fl. apply nth_In. lia. }
    rewrite pulse_delta_ok by assumption. cbn [bind]. rewrite aset_ok by lia. cbn [bind].
    match goal with |- context [set_lastPulse u ?l] => set (la := l) in * end.
    destruct (IH (i + 1) (set_lastPulse u la) idx frames base) as (last & d & -> & H1 & H2 & H3); auto; try lia.
    + intros k Hk. ucbn. apply Hb. lia.
    + ucbn. unfold la. rewrite upd_length. exact Ll.
    + ucbn. unfold la. apply upd_frames; [exact Fl|]. apply level_frame; assumption.
    + cbn [bind]. eexists _, _. split; [reflexivity|]. split; [exact H1|]. split; [exact H2|].
      cbn [length]. lia.
Qed.

Lemma frac_step frac period : 0 <= frac < 1048576 -> Z.abs period <= 268435456 ->
  -257 <= Z.shiftr (frac + period) BK_FINT20_SHIFT - Z.shiftr frac BK_FINT20_SHIFT <= 257 /\
  (forall k, Z.abs period <= k * 1048576 ->
   - k <= Z.shiftr (frac + period) BK_FINT20_SHIFT - Z.shiftr frac BK_FINT20_SHIFT).
Proof.
  intros Hf Hp. unfold BK_FINT20_SHIFT. rewrite !shiftr_div by lia. change (2 ^ 20) with 1048576.
  rewrite (Z.div_small frac) by lia. rewrite Z.sub_0_r. split; [split|].
  - apply Z.div_le_lower_bound; lia.
  - apply Z.lt_succ_r. apply Z.div_lt_upper_bound; lia.
  - intros k Hk. apply Z.div_le_lower_bound; lia.
Qed.

Lemma wrap_phase_ok fuel z len : 2 <= len <= 1073741824 -> -600 <= z <= len + 600 -> ~ 0 <= z < len ->
  700 <= Z.of_nat fuel ->
  exists r dir, BKUnitWrapSamplePhase fuel (u32 z) 0 len = Ok (r, dir) /\ 0 <= r < len /\
    (z >= len /\ dir = 1 \/ z < 0 /\ dir = -1 /\ (- len < z -> r = z + len)).
Proof.
  intros L Hz Hz2 Hf.
  unfold BKUnitWrapSamplePhase. rewrite chk32_ok by lia. cbn [bind]. rewrite Z.sub_0_r.
  rewrite s32_u32 by lia. destruct (Z.geb_spec z len) as [E1|E1].
  - rewrite u32_id by lia.
    destruct (wrap_down_ok fuel z len ltac:(lia) ltac:(lia)) as (r & -> & Hr & _).
    { apply Z.lt_le_trans with (len * 701); [lia|]. apply Z.mul_le_mono_nonneg_l; lia. }
    cbn [bind]. exists r, 1. split; [reflexivity|]. split; [exact Hr|]. left. split; [lia|reflexivity].
  - assert (Hn : z < 0) by lia. replace (z <? 0) with true by lia.
    destruct (wrap_up_ok fuel z len ltac:(lia) ltac:(lia)) as (r & -> & Hr & _ & H2).
    { apply Z.le_trans with (len * 700); [lia|]. apply Z.mul_le_mono_nonneg_l; lia. }
    cbn [bind]. exists r, (-1). split; [reflexivity|]. split; [exact Hr|]. right. split; [lia|]. split; [reflexivity|].
    intros. apply H2. lia.
Qed.

Lemma abs32_ok v : Z.abs v <= 268435456 -> abs32 v = Ok (Z.abs v).
Proof.
  intros H. unfold abs32. destruct (Z.ltb_spec v 0).
  - rewrite chk32_ok by lia. f_equal. lia.
  - f_equal. lia.
Qed.

Lemma reset_phase_ok mode r dir z len ph md : 2 <= len <= 1073741824 -> 0 <= r < len ->
  (mode = BK_PALINDROME -> - len < z) ->
  (z >= len /\ dir = 1 \/ z < 0 /\ dir = -1 /\ (- len < z -> r = z + len)) ->
  (if mode =? BK_REPEAT then (r, dir)
   else if mode =? BK_PALINDROME then
     ((if dir =? 1 then u32 (len - r - 1) else if dir =? -1 then u32 (len - r) else r), - dir)
   else (r, 0)) = (ph, md) ->
  0 <= ph < len /\ (md = 0 \/ md = 1 \/ md = -1).
Proof.
  intros L Hr Hpal Hdir Ee. destruct (mode =? BK_REPEAT) eqn:M1.
  - injection Ee as <- <-. split; [exact Hr|]. lia.
  - destruct (mode =? BK_PALINDROME) eqn:M2.
    + apply Z.eqb_eq in M2. specialize (Hpal M2).
      destruct Hdir as [[H1 ->]|(H1 & -> & H2)].
      * cbn [Z.eqb] in Ee. injection Ee as <- <-. rewrite u32_id by lia. lia.
      * replace (-1 =? 1) with false in Ee by reflexivity. replace (-1 =? -1) with true in Ee by reflexivity.
        injection Ee as <- <-. rewrite (H2 ltac:(lia)). rewrite u32_id by lia. lia.
    + injection Ee as <- <-. split; [exact Hr|]. lia.
Qed.

Lemma reset_ok fuel u z : unit_wf u -> sample_good (set_phase u 0) -> 2 <= sm_length (un_sample u) ->
  -600 <= z <= sm_length (un_sample u) + 600 -> ~ 0 <= z < sm_length (un_sample u) ->
  (sm_repeatMode (un_sample u) = BK_PALINDROME -> - sm_length (un_sample u) < z) ->
  (sm_repeatMode (un_sample u) = BK_PALINDROME ->
   Z.abs (sm_period (un_sample u)) <= (sm_length (un_sample u) - 1) * 1048576) ->
  ph_phase (un_phase u) = u32 z -> 700 <= Z.of_nat fuel ->
  exists u' h, BKUnitResetSample fuel u = Ok (u', h) /\ playing u'.
Proof.
  intros W G L Hz Hz2 Hpal Hpal2 Hph Hf.
  assert (P0 : playing (set_phase u 0)).
  { constructor; auto. wf_destruct W. constructor; ucbn; auto. lia. }
  pose proof W as W'. wf_destruct W'.
  set (len := sm_length (un_sample u)) in *.
  unfold BKUnitResetSample. cbv zeta. fold len. rewrite Hph, (s32_id len) by lia.
  destruct (wrap_phase_ok fuel z len (conj L (proj2 Wlength)) Hz Hz2 Hf) as (r & dir & -> & Hr & Hdir). cbn [bind].
  set (mode := match sm_callback (un_sample u) with Some _ => _ | None => _ end).
  assert (Hcnt : 0 <= u32 (sm_repeatCount (un_sample u) + 1) < 4294967296) by apply u32_range.
  assert (Hm : mode <> BK_PALINDROME \/ sm_repeatMode (un_sample u) = BK_PALINDROME).
  { unfold mode. destruct (sm_callback (un_sample u)).
    - left. discriminate.
    - rewrite s32_id by lia. destruct (Z.eq_dec (sm_repeatMode (un_sample u)) BK_PALINDROME); auto. }
  clearbody mode.
  match goal with |- context [let '(_, _) := ?e in _] => destruct e as [ph2 md] eqn:Ee end.
  destruct (reset_phase_ok mode r dir z len ph2 md (conj L (proj2 Wlength)) Hr) as [Hph2 Hmd]; try assumption.
  { intros Em. apply Hpal. destruct Hm as [Hm|Hm]; [contradiction|exact Hm]. }
  rewrite abs32_ok by exact (proj2 Wsper).
  assert (Wf0 : 0 <= sm_timeFrac (un_sample (set_phase u 0)) < 1048576) by exact Wfrac.
  destruct (md =? 0).
  - eexists _, _. split; [reflexivity|].
    pose proof (moved_playing _ ph2 _ (sm_period (un_sample u))
                  (u32 (sm_repeatCount (un_sample u) + 1)) 1 P0 Hph2 Wf0 eq_refl Hcnt (or_intror eq_refl)) as Q.
    destruct u as [? ? ? ? ? ? ? ? [? ? ? ?] [? ? ? ? ? ? ? ? ? ? ? ? ?] ? ? ?]; exact Q.
  - cbn [bind]. eexists _, _. split; [reflexivity|].
    assert (Q' : Z.abs (if md =? -1 then - Z.abs (sm_period (un_sample u)) else Z.abs (sm_period (un_sample u))) =
                 Z.abs (sm_period (un_sample (set_phase u 0)))).
    { ucbn. clear. destruct (md =? -1); lia. }
    pose proof (moved_playing _ ph2 _ _ (u32 (sm_repeatCount (un_sample u) + 1)) (un_mute u) P0 Hph2 Wf0
                  Q' Hcnt Wmute) as Q.
    destruct u as [? ? ? ? ? ? ? ? [? ? ? ?] [? ? ? ? ? ? ? ? ? ? ? ? ?] ? ? ?]; exact Q.
Qed.

Lemma sustain_playing c u : playing u -> (c = true -> un_sustain u = true) -> playing (sustain_step c u).
Proof.
  intros P Hc. unfold sustain_step. cbv zeta. destruct c; [|exact P].
  specialize (Hc eq_refl). pose proof P as P'. destruct P' as [W G L Pl].
  pose proof W as W'. wf_destruct W'. sg_destruct G. specialize (Ssus Hc). specialize (Sphase L).
  assert (M : forall ph, 0 <= ph < sm_length (un_sample u) -> playing (set_phase u ph)).
  { intros ph Hph. pose proof (moved_playing u ph (sm_timeFrac (un_sample u)) (sm_period (un_sample u))
       (sm_repeatCount (un_sample u)) (un_mute u) P Hph Wfrac eq_refl Wrcount Wmute) as Q.
    destruct u; destruct un_sample, un_phase; exact Q. }
  destruct (_ >? 0).
  - destruct (_ >=? _); [|exact P]. apply M. lia.
  - destruct (_ <? _); [|exact P]. rewrite u32_id by lia. apply M. lia.
Qed.

Lemma idx_ok ph nc len : 0 <= ph -> ph < len -> 1 <= nc -> 0 <= ph * nc /\ ph * nc + nc <= len * nc.
Proof. intros. nia. Qed.

Lemma sample_loop_ok fuel : forall u n c time t,
  playing u -> un_ctx u = Some n -> (c = true -> un_sustain u = true) ->
  0 <= time < 2147483648 - 1048576 \/ t <= u32 time -> -2147483648 <= time <= 2147483647 ->
  0 <= t -> t + 1048576 < 2147483648 -> t - time + 900 <= Z.of_nat fuel \/ t <= u32 time ->
  exists u' t' l, sample_loop fuel u n c time t = Ok (u', t', l) /\ playing u'.
Proof.
  induction fuel as [|fuel IH]; intros * P Hctx Hc Ht Hts Ht0 Ht1 Hf; cbn [sample_loop];
    destruct (u32 time <? t) eqn:E.
  - destruct Ht as [Ht|Ht]; [|lia]. rewrite u32_id in * by lia. lia.
  - exists u, time, (repeat [] (Z.to_nat n)). auto.
  - destruct Ht as [Ht|Ht]; [|lia]. rewrite u32_id in * by lia.
    destruct Hf as [Hf|Hf]; [|lia].
    pose proof P as P'. destruct P' as [W G L Pl]. pose proof W as W'. wf_destruct W'. pose proof G as G'. sg_destruct G'.
    destruct Sframes as (frames & base & Ef & Hb0 & Hb1 & Hb2 & HF).
    assert (Hn : 1 <= n <= 8) by (apply Wctx; exact Hctx).
    specialize (Sphase L).
    set (ph := ph_phase (un_phase u)) in *. set (nc := sm_numChannels (un_sample u)) in *.
    set (len := sm_length (un_sample u)) in *.
    pose proof (idx_ok ph nc len (proj1 Wphase) Sphase (proj1 Schan)) as Hidx.
    cbv zeta. rewrite (u32_id (ph * nc)) by (clear - Hidx Hb0 Hb1 Hb2 Schan; clearbody nc len ph; lia).
    destruct (sample_channels_ok (Z.to_nat n) 0 u (ph * nc) frames base Ef HF) as (last & d & -> & L1 & L2 & L3);
      try lia; try apply W.
    { intros k Hk. fold nc. rewrite Z2Nat.id in Hk by lia. destruct (nc =? 1) eqn:Enc; [lia|].
      destruct (Sctx n Hctx) as [Hs|Hs]; lia. }
    cbn [bind]. rewrite chk32_ok by lia. cbn [bind].
    pose proof (last_playing u last P L1 L2) as P1.
    set (v := set_lastPulse u last) in *.
    unfold sample_advance. cbv zeta.
    change (un_sample v) with (un_sample u). change (un_phase v) with (un_phase u). fold ph.
    pose proof (frac_step (sm_timeFrac (un_sample u)) (sm_period (un_sample u)) Wfrac ltac:(lia)) as [F1 F2].
    rewrite chk32_ok by lia. cbn [bind].
    set (tf := sm_timeFrac (un_sample u) + sm_period (un_sample u)) in *.
    set (step := Z.shiftr tf BK_FINT20_SHIFT - Z.shiftr (sm_timeFrac (un_sample u)) BK_FINT20_SHIFT) in *.
    set (w := set_phase (set_sm v (s_timeFrac (un_sample u) (Z.land tf BK_FINT20_FRAC))) (u32 (ph + step))) in *.
    assert (Hfrac : 0 <= Z.land tf BK_FINT20_FRAC < 1048576).
    { unfold BK_FINT20_FRAC. rewrite land_frac. apply Z.mod_pos_bound. lia. }
    assert (Ew : ph_phase (un_phase w) = u32 (ph + step)) by reflexivity.
    assert (Elw : sm_length (un_sample w) = len) by reflexivity.
    rewrite Ew, Elw. rewrite s32_u32 by lia. rewrite (s32_id len) by lia.
    assert (X : exists x h,
      (if (ph + step <? 0) || (ph + step >=? len) then BKUnitResetSample (S fuel) w else Ok (w, false)) = Ok (x, h) /\
      playing x).
    { destruct ((ph + step <? 0) || (ph + step >=? len)) eqn:Eo.
      - apply (reset_ok (S fuel) w (ph + step)).
        + assert (Wv : unit_wf v) by apply P1. clear - Wv Hfrac. wf_destruct Wv. unfold w. constructor; ucbn; auto. apply u32_range.
        + destruct P1 as [_ Gv _ _]. clear - Gv. sg_destruct Gv. unfold w. constructor; ucbn; auto. intros. lia.
        + exact L.
        + rewrite Elw. lia.
        + rewrite Elw. lia.
        + intros Ep. rewrite Elw. specialize (F2 (len - 1)). specialize (Pl Ep). unfold len in *. lia.
        + exact Pl.
        + reflexivity.
        + lia.
      - exists w, false. split; [reflexivity|].
        pose proof (moved_playing v (ph + step) (Z.land tf BK_FINT20_FRAC) (sm_period (un_sample u))
          (sm_repeatCount (un_sample u)) (un_mute u) P1 ltac:(change (sm_length (un_sample v)) with len; lia)
          Hfrac eq_refl Wrcount Wmute) as Q.
        unfold w. rewrite u32_id by lia. exact Q. }
    destruct X as (x & h & Ex & Px). rewrite Ex. cbn [bind].
    destruct h.
    + eexists _, _, _. split; [reflexivity|]. exact Px.
    + unfold BK_FINT20_UNIT. rewrite chk32_ok by lia. cbn [bind].
      assert (Fx : same_frame x u).
      { destruct (_ || _).
        - apply reset_frame in Ex. destruct Ex as (Ex & _).
          eapply same_frame_trans; [exact Ex|]. repeat split.
        - injection Ex as <-. repeat split. }
      assert (Fs := Fx). destruct Fs as (Fs1 & _ & _ & _ & _ & _ & Fs2 & _).
      destruct (IH (sustain_step c x) n c (time + 1048576) t) as (u' & t' & l & -> & P').
      * apply sustain_playing; [exact Px|]. intros Hct. rewrite Fs2. auto.
      * destruct (sustain_frame c x) as (Fy & _). destruct Fy as (Fy & _). rewrite Fy, Fs1. exact Hctx.
      * intros Hct. destruct (sustain_frame c x) as (Fy & _).
        destruct Fy as (_ & _ & _ & _ & _ & _ & Fy & _). rewrite Fy, Fs2. auto.
      * rewrite u32_id by lia. lia.
      * lia.
      * exact Ht0.
      * exact Ht1.
      * rewrite u32_id by lia. lia.
      * cbn [bind]. eexists _, _, _. split; [reflexivity|]. exact P'.
  - exists u, time, (repeat [] (Z.to_nat n)). auto.
Qed.
