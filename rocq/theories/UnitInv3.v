(** Attributes, ranges and histories of units. *)
From Verif Require Import CInt CIntFacts DataModel UnitModel UnitSpec UnitProofs UnitProofs2 UnitProofs3 UnitInv UnitInv2.
Ltac Zify.zify_post_hook ::= idtac.

Lemma clamp_range v l h : l <= h -> l <= BKClamp v l h <= h.
Proof. intros H. unfold BKClamp. destruct (Z.ltb_spec v l); [lia|]. destruct (Z.gtb_spec v h); lia. Qed.

Lemma clamp_any v : 0 <= BKClamp v 0 4294967295 <= 4294967295.
Proof. apply clamp_range. lia. Qed.

Lemma upd_volume l k v : Forall (fun v => 0 <= v <= 32767) l -> 0 <= v <= 32767 ->
  Forall (fun v => 0 <= v <= 32767) (upd l k v).
Proof.
  intros H Hv. revert k. induction H as [|x l Hx H IH]; intros [|k]; cbn [upd]; constructor; auto.
Qed.

(** Members changed one at a time. *)
Lemma phase_safe u ph : unit_safe u -> 0 <= ph < 4294967296 ->
  (BK_SQUARE <= un_waveform u <= BK_CUSTOM -> phase_good u ph) ->
  (un_waveform u = BK_SAMPLE -> 2 <= sm_length (un_sample u) -> ph < sm_length (un_sample u)) ->
  unit_safe (set_phase u ph).
Proof.
  intros [W [T G]] H1 H2 H3. split; [|split].
  - wf_destruct W. constructor; ucbn; auto.
  - intros E. destruct (T E) as [T1 T2]. split; [exact T1|]. exact (H2 E).
  - intros E. specialize (G E). specialize (H3 E). sg_destruct G. constructor; ucbn; auto.
Qed.

Lemma duty_safe u v : unit_safe u -> 1 <= v <= 15 -> unit_safe (set_duty u v).
Proof.
  intros [W [T G]] H. split; [|split].
  - wf_destruct W. constructor; ucbn; auto.
  - intros E. destruct (T E) as [[T0 T1] T2]. split; [split; [exact H|exact T1]|exact T2].
  - intros E. specialize (G E). sg_destruct G. constructor; ucbn; auto.
Qed.

Lemma period_safe u v : unit_safe u -> 0 <= v < 2147483648 -> unit_safe (set_period u v).
Proof.
  intros [W [T G]] H. split; [|split].
  - wf_destruct W. constructor; ucbn; auto.
  - exact T.
  - intros E. specialize (G E). sg_destruct G. constructor; ucbn; auto.
Qed.

Lemma volume_safe u v : unit_safe u -> length v = 8%nat -> Forall (fun v => 0 <= v <= 32767) v ->
  unit_safe (set_volume u v).
Proof.
  intros [W [T G]] H1 H2. split; [|split].
  - wf_destruct W. constructor; ucbn; auto.
  - exact T.
  - intros E. specialize (G E). sg_destruct G. constructor; ucbn; auto.
Qed.

Lemma mute_safe u v : unit_safe u -> v = 0 \/ v = 1 -> unit_safe (set_mute u v).
Proof.
  intros [W [T G]] H. split; [|split].
  - wf_destruct W. constructor; ucbn; auto.
  - exact T.
  - intros E. specialize (G E). sg_destruct G. constructor; ucbn; auto.
Qed.

Lemma flags_safe u b c : unit_safe u -> unit_safe (set_flags u (un_sustain u) b c).
Proof.
  intros [W [T G]]. split; [|split].
  - wf_destruct W. constructor; ucbn; auto.
  - exact T.
  - intros E. specialize (G E). sg_destruct G. constructor; ucbn; auto.
Qed.

Lemma wrap_safe u v : unit_safe u -> 0 <= v < 2147483648 ->
  unit_safe (set_ph u (mk_phase 0 v v (ph_count (un_phase u)))).
Proof.
  intros [W [T G]] H. split; [|split].
  - wf_destruct W. constructor; ucbn; auto; lia.
  - intros E. destruct (T E) as [T1 T2]. split; [exact T1|]. unfold phase_good in *. ucbn.
    split; [lia|]. destruct T2 as [T0 [[T3 T4]|[[T3 T4]|T3]]]; [left; lia|right; left|right; right; lia].
    split; [exact T3|]. destruct T1 as [_ T1]. specialize (T1 T3). lia.
  - intros E. specialize (G E). sg_destruct G. constructor; ucbn; auto. lia.
Qed.

Lemma mode_safe u v : unit_safe u -> 0 <= v <= 2 -> unit_safe (set_sm u (s_repeatMode (un_sample u) v)).
Proof.
  intros [W [T G]] H. split; [|split].
  - wf_destruct W. constructor; ucbn; auto.
  - exact T.
  - intros E. specialize (G E). sg_destruct G. constructor; ucbn; auto.
Qed.

Lemma sper_safe u v : unit_safe u -> 4096 <= Z.abs v <= 268435456 -> unit_safe (set_sm u (s_period (un_sample u) v)).
Proof.
  intros [W [T G]] H. split; [|split].
  - wf_destruct W. constructor; ucbn; auto.
  - exact T.
  - intros E. specialize (G E). sg_destruct G. constructor; ucbn; auto.
Qed.

Lemma callback_set_safe u v : unit_safe u -> unit_safe (set_sm u (s_callback (un_sample u) v)).
Proof.
  intros [W [T G]]. split; [|split].
  - wf_destruct W. constructor; ucbn; auto.
  - exact T.
  - intros E. specialize (G E). sg_destruct G. constructor; ucbn; auto.
Qed.

(** Zero is a position in every table. *)
Lemma zero_good u : table_good u -> BK_SQUARE <= un_waveform u <= BK_CUSTOM -> phase_good u 0.
Proof.
  intros [_ T] H. split; [lia|].
  destruct (Z.eq_dec (un_waveform u) BK_CUSTOM) as [E|E].
  - right. left. split; [exact E|]. specialize (T E). lia.
  - destruct (Z.eq_dec (un_waveform u) BK_NOISE) as [E'|E']; [left; lia|]. right. right.
    unfold wave_length. wave_consts.
    destruct (_ =? 16385) eqn:?; [lia|]. destruct (_ =? 16386) eqn:?; [lia|].
    destruct (_ =? 16388) eqn:?; [lia|]. destruct (_ =? 16389) eqn:?; [lia|]. lia.
Qed.

(** A waveform without data. *)
Lemma table_safe u w count : unit_wf u -> waveform_phases w = Some count -> w <> un_waveform u ->
  unit_safe (unit_data_state (set_waveform (set_phase (set_ph u (p_count (un_phase u) count)) 0) w) None).
Proof.
  intros W Hw Hne.
  assert (Hr : (w = 0 \/ BK_SQUARE <= w <= BK_SINE) /\ 0 <= count <= 64).
  { revert Hw. unfold waveform_phases. wave_consts.
    unfold BK_SQUARE_PHASES, BK_TRIANGLE_PHASES, BK_NOISE_PHASES, BK_SAWTOOTH_PHASES, BK_SINE_PHASES.
    repeat match goal with |- context [w =? ?k] => destruct (Z.eqb_spec w k) end;
      intros H; try discriminate H; injection H as <-; lia. }
  destruct Hr as [Hr Hcount].
  assert (T : table_good (unit_data_state (set_waveform (set_phase (set_ph u (p_count (un_phase u) count)) 0) w) None)).
  { split; [apply W|]. ucbn. wave_consts. lia. }
  split; [|split].
  - wf_destruct W. constructor; ucbn; auto; try lia; try discriminate.
    wave_consts. lia.
  - ucbn. intros E. split; [exact T|]. exact (zero_good _ T E).
  - ucbn. wave_consts. lia.
Qed.

(** The same waveform once more. *)
Lemma table_again u count : unit_safe u -> waveform_phases (un_waveform u) = Some count ->
  unit_safe (unit_data_state (set_ph u (p_count (un_phase u) count)) None).
Proof.
  intros [W [T G]] Hw.
  assert (Hr : (un_waveform u = 0 \/ BK_SQUARE <= un_waveform u <= BK_SINE) /\ 0 <= count <= 64).
  { revert Hw. unfold waveform_phases. wave_consts.
    unfold BK_SQUARE_PHASES, BK_TRIANGLE_PHASES, BK_NOISE_PHASES, BK_SAWTOOTH_PHASES, BK_SINE_PHASES.
    repeat match goal with |- context [un_waveform u =? ?k] => destruct (Z.eqb_spec (un_waveform u) k) end;
      intros H; try discriminate H; injection H as <-; lia. }
  destruct Hr as [Hr Hcount]. split; [|split].
  - wf_destruct W. constructor; ucbn; auto; try lia; try discriminate.
  - ucbn. intros E. destruct (T E) as [T1 T2]. split.
    + split; [apply T1|]. ucbn. wave_consts. lia.
    + destruct T2 as [T2 [T3|[[T3 _]|T3]]]; (split; [exact T2|]); ucbn; [left; exact T3| |right; right; exact T3].
      wave_consts. lia.
  - ucbn. wave_consts. lia.
Qed.

Lemma count_wave w c : waveform_phases w = Some c -> BK_SQUARE <= w <= BK_SINE ->
  w = BK_NOISE /\ c = 8 \/ c = wave_length w /\ 0 < c <= 64.
Proof.
  intros H Hw. assert (Hc : w = BK_SQUARE \/ w = BK_TRIANGLE \/ w = BK_NOISE \/ w = BK_SAWTOOTH \/ w = BK_SINE)
    by (wave_consts; lia).
  destruct Hc as [-> |[-> |[-> |[-> | ->]]]]; cbv in H; injection H as <-; auto; right; cbv; split; [reflexivity|split; congruence |reflexivity|split; congruence|reflexivity|split;congruence|reflexivity|split;congruence].
Qed.

Theorem attr_safe u attr value : unit_safe u -> in_s32 value = true ->
  uop_careful u (UAttr attr value) ->
  exists u' r, BKUnitSetAttr u attr value = Ok (u', r) /\ unit_safe u'.
Proof.
  intros U Hv [C1 C2]. pose proof U as U'. destruct U' as [W [T G]]. apply in_s32_spec in Hv.
  assert (Hduty : 1 <= un_duty u <= 15) by apply W.
  assert (Hph : 0 <= ph_phase (un_phase u) < 4294967296) by apply W.
  assert (Hcnt : 0 <= ph_count (un_phase u) <= 64) by apply W.
  assert (Hlen : 0 <= sm_length (un_sample u) <= 1073741824) by apply W.
  unfold BKUnitSetAttr. cbv zeta.
  destruct (attr =? BK_DUTY_CYCLE).
  { pose proof (clamp_range value BK_MIN_DUTY_CYCLE BK_MAX_DUTY_CYCLE ltac:(discriminate)) as Hc.
    destruct (negb (un_duty u =? _)); [|eauto]. eexists _, _. split; [reflexivity|].
    apply duty_safe; [|exact Hc].
    destruct (_ && _ && _) eqn:E; [|exact U]. apply phase_safe; [exact U|lia| |lia].
    intros Hw. apply zero_good; [apply T; exact Hw|exact Hw]. }
  destruct (attr =? BK_WAVEFORM).
  { destruct (waveform_phases value) as [count|] eqn:Ew; [|eauto].
    eexists _, _. split; [reflexivity|].
    change (un_waveform (set_ph u (p_count (un_phase u) count))) with (un_waveform u).
    destruct (Z.eqb_spec (un_waveform u) value) as [E|E]; cbn [negb].
    - apply table_again; [exact U|]. rewrite E. exact Ew.
    - apply table_safe; auto. }
  destruct (attr =? BK_PHASE).
  { destruct (negb (un_waveform u =? BK_SAMPLE)) eqn:Es.
    - eexists _, _. split; [reflexivity|].
      assert (Hu : 0 <= u32 (ph_count (un_phase u) - 1) < 4294967296) by apply u32_range.
      pose proof (clamp_range value 0 (u32 (ph_count (un_phase u) - 1)) (proj1 Hu)) as Hc.
      apply phase_safe; [exact U|lia| |lia].
      intros Hw. destruct (T Hw) as [T1 T2]. split; [lia|].
      destruct (Z.eq_dec (un_waveform u) BK_CUSTOM) as [E|E].
      + right. left. split; [exact E|]. destruct T1 as [_ T1]. specialize (T1 E).
        rewrite (u32_id (ph_count (un_phase u) - 1)) in * by lia. lia.
      + assert (Hp : waveform_phases (un_waveform u) = Some (ph_count (un_phase u))).
        { apply W. wave_consts. lia. }
        apply count_wave in Hp; [|wave_consts; lia]. destruct Hp as [[E1 E2]|[E1 E2]].
        * left. split; [exact E1|]. rewrite E2 in *. change (u32 (8 - 1)) with 7 in *. lia.
        * right. right. rewrite (u32_id (ph_count (un_phase u) - 1)) in * by lia. lia.
    - apply negb_false_iff, Z.eqb_eq in Es. eexists _, _. split; [reflexivity|].
      assert (Hu : 0 <= u32 (sm_length (un_sample u) - 1) < 4294967296) by apply u32_range.
      match goal with |- context [BKClamp ?v 0 (u32 (sm_length (un_sample u) - 1))] =>
        pose proof (clamp_range v 0 (u32 (sm_length (un_sample u) - 1)) (proj1 Hu)) as Hc end.
      apply phase_safe; [exact U|lia| |].
      + rewrite Es. wave_consts. lia.
      + intros _ H2. rewrite (u32_id (sm_length (un_sample u) - 1)) in * by lia. lia. }
  destruct (attr =? BK_PHASE_WRAP).
  { eexists _, _. split; [reflexivity|]. apply wrap_safe; [exact U|].
    destruct (value =? 0); cbn [negb]; [lia|]. unfold BKMax. destruct (Z.gtb_spec value 2); lia. }
  destruct (Z.eqb_spec attr BK_PERIOD) as [E|_].
  { unfold abs32. specialize (C1 (or_introl E)).
    assert (Hm : forall v, 0 <= v < 2147483648 -> 0 <= BKMax v BK_MIN_PERIOD < 2147483648).
    { intros v H. unfold BKMax, BK_MIN_PERIOD. destruct (Z.gtb_spec v 0); lia. }
    destruct (Z.ltb_spec value 0).
    - rewrite chk32_ok by lia. cbn [bind]. eexists _, _. split; [reflexivity|]. apply period_safe; [exact U|].
      apply Hm. lia.
    - cbn [bind]. eexists _, _. split; [reflexivity|]. apply period_safe; [exact U|]. apply Hm. lia. }
  assert (Hvol : 0 <= BKClamp value 0 BK_MAX_VOLUME <= 32767) by (apply clamp_range; discriminate).
  destruct (attr =? BK_VOLUME).
  { eexists _, _. split; [reflexivity|]. apply volume_safe; [exact U|reflexivity|].
    change (Z.to_nat BK_MAX_CHANNELS) with 8%nat. repeat constructor; lia. }
  destruct ((BK_VOLUME_0 <=? attr) && (attr <=? BK_VOLUME_7)) eqn:E7.
  { destruct (wf_volume u W) as [L F]. rewrite aset_ok by (unfold BK_VOLUME_0, BK_VOLUME_7 in *; lia).
    cbn [bind]. eexists _, _. split; [reflexivity|]. apply volume_safe; [exact U|rewrite upd_length; exact L|].
    apply upd_volume; [exact F|exact Hvol]. }
  destruct (attr =? BK_MUTE).
  { eexists _, _. split; [reflexivity|]. apply mute_safe; [exact U|]. destruct (value =? 0); auto. }
  destruct (attr =? BK_SAMPLE_REPEAT).
  { eexists _, _. split; [reflexivity|]. apply mode_safe; [exact U|].
    unfold BK_NO_REPEAT, BK_REPEAT, BK_PALINDROME.
    destruct (Z.eqb_spec value 0); [cbn [orb]; lia|]. destruct (Z.eqb_spec value 1); [cbn [orb]; lia|].
    destruct (Z.eqb_spec value 2); cbn [orb]; lia. }
  destruct (Z.eqb_spec attr BK_SAMPLE_PERIOD) as [E|_].
  { specialize (C1 (or_intror E)).
    assert (Ha : abs32 value = Ok (Z.abs value)).
    { unfold abs32. destruct (Z.ltb_spec value 0); [rewrite chk32_ok by lia|]; f_equal; lia. }
    rewrite Ha. cbn [bind]. eexists _, _. split; [reflexivity|]. apply sper_safe; [exact U|].
    pose proof (clamp_range (Z.abs value) BK_MIN_SAMPLE_PERIOD BK_MAX_SAMPLE_PERIOD ltac:(discriminate)) as Hc.
    unfold BK_MIN_SAMPLE_PERIOD, BK_MAX_SAMPLE_PERIOD in *. destruct (_ <? 0); lia. }
  destruct (attr =? BK_SAMPLE_IMMED_RELEASE).
  { eexists _, _. split; [reflexivity|]. apply flags_safe. exact U. }
  destruct (Z.eqb_spec attr BK_FLAG_RELEASE) as [E|_]; [|eauto].
  destruct (un_sustain u) eqn:Esu; [|eauto].
  assert (Uf : unit_safe (set_flags u true (un_jump u) (negb (value =? 0)))).
  { rewrite <- Esu. apply flags_safe. exact U. }
  change (un_jump (set_flags u true (un_jump u) (negb (value =? 0)))) with (un_jump u).
  change (un_mute (set_flags u true (un_jump u) (negb (value =? 0)))) with (un_mute u).
  destruct (negb (value =? 0) && un_jump u && (un_mute u =? 0)) eqn:Ej; [|eauto].
  destruct (C2 E ltac:(lia) eq_refl ltac:(destruct (un_jump u); [reflexivity|lia])) as [Es Hse].
  pose proof (wf_srange u W) as [R1 R2].
  assert (Gs := sg_sustain u (G Es) Esu).
  assert (NoW : BK_SQUARE <= un_waveform u <= BK_CUSTOM -> False) by (rewrite Es; wave_consts; lia).
  destruct (_ >? 0).
  - eexists _, _. split; [reflexivity|]. apply phase_safe; [exact Uf|lia| |].
    + intros Hw. destruct (NoW Hw).
    + intros _ _. exact Hse.
  - rewrite s32_id by lia. rewrite chk32_ok by lia. cbn [bind]. eexists _, _. split; [reflexivity|].
    assert (Hm : 0 <= BKMax 0 (sm_sustainOffset (un_sample u) - 1) < sm_length (un_sample u)).
    { unfold BKMax. destruct (Z.gtb_spec 0 (sm_sustainOffset (un_sample u) - 1)); lia. }
    apply phase_safe; [exact Uf|lia| |].
    + intros Hw. destruct (NoW Hw).
    + intros _ _. exact (proj2 Hm).
Qed.

(** ** Ranges *)

Lemma range_norm d v : wdata_ok d -> -2147483648 <= v <= 2147483647 ->
  exists w, (if v <? 0 then let* l := chk32 (s32 (w_numFrames d) + 1) in chk32 (v + l) else Ok v) = Ok w /\
    BKClamp w 0 (s32 (w_numFrames d)) = range_bound (w_numFrames d) v /\
    0 <= range_bound (w_numFrames d) v <= w_numFrames d.
Proof.
  intros D Hv. pose proof (wdata_frames d D) as [D1 _]. rewrite s32_id by lia. unfold range_bound, BKClamp.
  destruct (Z.ltb_spec v 0).
  - rewrite chk32_ok by lia. cbn [bind]. rewrite chk32_ok by lia. eexists. split; [reflexivity|].
    split; [|lia]. destruct (Z.ltb_spec (v + (w_numFrames d + 1)) 0); [lia|].
    destruct (Z.gtb_spec (v + (w_numFrames d + 1)) (w_numFrames d)); lia.
  - eexists. split; [reflexivity|]. split; [|lia]. destruct (Z.ltb_spec v 0); [lia|].
    destruct (Z.gtb_spec v (w_numFrames d)); lia.
Qed.

Lemma sustain_update u a b d : unit_wf u -> sm_data (un_sample u) = Some d ->
  -2147483648 <= a <= 2147483647 -> -2147483648 <= b <= 2147483647 ->
  let A := range_bound (w_numFrames d) a in
  let B := range_bound (w_numFrames d) b in
  BKUnitUpdateSampleSustainRange u a b =
  Ok (set_sm (set_flags u (negb (A =? B)) (un_jump u) (un_release u))
             (s_sustain (un_sample u) (Z.min A B) (Z.max A B))).
Proof.
  intros W E Ha Hb A B. pose proof (wf_data u W d E) as D.
  unfold BKUnitUpdateSampleSustainRange. cbv zeta. rewrite E.
  destruct (range_norm d a D Ha) as (x & -> & E1 & _). cbn [bind].
  destruct (range_norm d b D Hb) as (y & -> & E2 & _). cbn [bind].
  rewrite E1, E2. fold A B. clearbody A B. clear.
  destruct (Z.ltb_spec B A).
  - replace (Z.min A B) with B by lia. replace (Z.max A B) with A by lia. do 4 f_equal. lia.
  - replace (Z.min A B) with A by lia. replace (Z.max A B) with B by lia. reflexivity.
Qed.

Lemma range_update u a b d : unit_safe u -> un_waveform u = BK_SAMPLE -> sm_data (un_sample u) = Some d ->
  -2147483648 <= a <= 2147483647 -> -2147483648 <= b <= 2147483647 ->
  let A := range_bound (w_numFrames d) a in
  let B := range_bound (w_numFrames d) b in
  exists phase, 0 <= phase < 4294967296 /\ (2 <= Z.abs (A - B) -> phase < Z.abs (A - B)) /\
  BKUnitUpdateSampleRange u a b =
  Ok (set_phase (set_sm u (s_period (s_length (s_range (un_sample u) A B
        (Some (w_frames d, Z.min A B * sm_numChannels (un_sample u)))) (Z.abs (A - B)))
        (if A >? B then - Z.abs (sm_period (un_sample u)) else Z.abs (sm_period (un_sample u))))) phase).
Proof.
  intros U Es E Ha Hb A B. destruct U as [W [_ G]]. specialize (G Es).
  pose proof (wf_data u W d E) as D. pose proof (wdata_frames d D) as [D1 D2].
  unfold BKUnitUpdateSampleRange. cbv zeta. rewrite E.
  destruct (range_norm d a D Ha) as (x & -> & E1 & R1). cbn [bind].
  destruct (range_norm d b D Hb) as (y & -> & E2 & R2). cbn [bind].
  rewrite E1, E2. fold A B. fold A in R1. fold B in R2. clearbody A B.
  pose proof (wf_range u W) as [W1 W2].
  assert (Hmin : 0 <= BKMin (sm_offset (un_sample u)) (sm_end (un_sample u)) <= 1073741824).
  { unfold BKMin. destruct (_ <? _); lia. }
  rewrite (s32_id (BKMin _ _)) by lia.
  assert (Em : BKMin A B = Z.min A B) by (unfold BKMin; destruct (Z.ltb_spec A B); lia).
  assert (Ea : BKAbs (A - B) = Z.abs (A - B)) by (unfold BKAbs; destruct (Z.ltb_spec (A - B) 0); lia).
  rewrite Em, Ea. rewrite chk32_ok by lia. cbn [bind].
  rewrite (abs32_sper u W). cbn [bind].
  assert (Eb : u32 (Z.min A B * sm_numChannels (un_sample u)) = Z.min A B * sm_numChannels (un_sample u)).
  { apply u32_id. pose proof (sg_data u G d E) as Hc. rewrite <- Hc. destruct D as (_ & D4 & D5 & _). clear - D4 D5 R1 R2 D1. nia. }
  rewrite Eb.
  match goal with |- context [set_phase _ (u32 ?e)] => set (np := e) end.
  exists (u32 np). split; [apply u32_range|]. split; [|reflexivity].
  intros Hl. set (len := Z.abs (A - B)) in *. assert (Hlen : 2 <= len <= 1073741824) by lia.
  assert (Hnp : 0 <= np < len).
  { unfold np. clear np. rewrite (u32_id (len - 1)) by lia. rewrite (s32_id (len - 1)) by lia.
    match goal with |- context [if ?c || _ then 0 else ?e] => set (p := e) end.
    assert (Hp : 0 <= (if (p <? 0) || (p >=? len) then 0 else p) < len).
    { destruct ((p <? 0) || (p >=? len)) eqn:Eo; lia. }
    destruct (sm_repeatCount (un_sample u) =? 0); [|exact Hp]. destruct ((A <? B) && _); [lia|].
    destruct (ph_phase (un_phase u) =? 0); [lia|exact Hp]. }
  rewrite u32_id by lia. lia.
Qed.

Lemma sustain_safe u a b : unit_safe u -> un_waveform u = BK_SAMPLE ->
  -2147483648 <= a <= 2147483647 -> -2147483648 <= b <= 2147483647 ->
  (forall d, sm_data (un_sample u) = Some d ->
   range_bound (w_numFrames d) a <> range_bound (w_numFrames d) b ->
   range_bound (w_numFrames d) a <= sm_length (un_sample u) /\
   range_bound (w_numFrames d) b <= sm_length (un_sample u)) ->
  exists u', BKUnitUpdateSampleSustainRange u a b = Ok u' /\ unit_safe u'.
Proof.
  intros U Es Ha Hb C. destruct (sm_data (un_sample u)) as [d|] eqn:E.
  2:{ unfold BKUnitUpdateSampleSustainRange. rewrite E. eauto. }
  pose proof U as U'. destruct U' as [W [_ G]]. specialize (G Es).
  rewrite (sustain_update u a b d W E Ha Hb). eexists. split; [reflexivity|].
  pose proof (wf_data u W d E) as D. pose proof (wdata_frames d D) as [D1 _].
  destruct (range_norm d a D Ha) as (_ & _ & _ & R1). destruct (range_norm d b D Hb) as (_ & _ & _ & R2).
  specialize (C d eq_refl).
  set (A := range_bound (w_numFrames d) a) in *. set (B := range_bound (w_numFrames d) b) in *. clearbody A B.
  split; [|split].
  - wf_destruct W. constructor; ucbn; auto. lia.
  - ucbn. rewrite Es. wave_consts. lia.
  - intros _. sg_destruct G. constructor; ucbn; auto. intros Hn. specialize (C ltac:(lia)). lia.
Qed.

Lemma range_safe u a b : unit_safe u -> un_waveform u = BK_SAMPLE ->
  -2147483648 <= a <= 2147483647 -> -2147483648 <= b <= 2147483647 ->
  exists u' u'', BKUnitUpdateSampleRange u a b = Ok u' /\ BKUnitUpdateSampleSustainRange u' 0 0 = Ok u'' /\ unit_safe u''.
Proof.
  intros U Es Ha Hb. destruct (sm_data (un_sample u)) as [d|] eqn:E.
  2:{ unfold BKUnitUpdateSampleRange, BKUnitUpdateSampleSustainRange. rewrite E. exists u, u. rewrite E. auto. }
  pose proof U as U'. destruct U' as [W [_ G]]. specialize (G Es).
  pose proof (wf_data u W d E) as D. pose proof (wdata_frames d D) as [D1 D2].
  destruct (range_norm d a D Ha) as (_ & _ & _ & R1). destruct (range_norm d b D Hb) as (_ & _ & _ & R2).
  destruct (range_update u a b d U Es E Ha Hb) as (ph & Hph & Hpl & ->). cbv zeta in *.
  set (A := range_bound (w_numFrames d) a) in *. set (B := range_bound (w_numFrames d) b) in *.
  assert (S0 : 4096 <= Z.abs (if A >? B then - Z.abs (sm_period (un_sample u)) else Z.abs (sm_period (un_sample u))) <= 268435456).
  { pose proof (wf_sper u W). destruct (A >? B); lia. }
  match goal with |- context [s_period _ ?x] => set (per := x) in * end. clearbody per.
  match goal with |- context [Ok ?x = Ok _] => set (v := x) end.
  assert (Ev : sm_data (un_sample v) = Some d) by exact E.
  assert (Wv : unit_wf v).
  { wf_destruct W. unfold v. constructor; ucbn; auto; lia. }
  eexists v, _. split; [reflexivity|].
  rewrite (sustain_update v 0 0 d Wv Ev ltac:(lia) ltac:(lia)). cbv zeta. split; [reflexivity|].
  assert (Z0 : range_bound (w_numFrames d) 0 = 0) by (unfold range_bound; cbn [Z.ltb Z.compare]; lia).
  rewrite Z0. split; [|split].
  - wf_destruct Wv. constructor; ucbn; auto. lia.
  - ucbn. unfold v. ucbn. rewrite Es. wave_consts. lia.
  - intros _. unfold v. pose proof (sg_data u G d E) as Hc. destruct D as (D3 & D4 & D5 & D6 & D7).
    sg_destruct G. constructor; ucbn; auto.
    + exists (w_frames d), (Z.min A B * sm_numChannels (un_sample u)). split; [reflexivity|].
      rewrite <- Hc. clear - R1 R2 D4 D5 D6 D7. clearbody A B.
      assert (Hs : Z.min A B * w_numChannels d + Z.abs (A - B) * w_numChannels d = Z.max A B * w_numChannels d).
      { rewrite <- Z.mul_add_distr_r. f_equal. lia. }
      rewrite Hs. split; [apply Z.mul_nonneg_nonneg; lia|]. split; [|split; [lia|exact D7]].
      rewrite D6. apply Z.mul_le_mono_nonneg_r; lia.
    + lia.
    + discriminate.
Qed.

Theorem ptr_safe u attr ptr : unit_safe u -> uop_ok (UPtr attr ptr) -> uop_careful u (UPtr attr ptr) ->
  exists u' r, BKUnitSetPtr u attr ptr = Ok (u', r) /\ unit_safe u'.
Proof.
  intros U (_ & _ & Hp) C. unfold BKUnitSetPtr.
  destruct (Z.eqb_spec attr BK_SAMPLE_CALLBACK) as [E|N1].
  { subst attr. destruct ptr as [|x|x|x y].
    - eexists _, _. split; [reflexivity|]. apply callback_set_safe. exact U.
    - eexists _, _. split; [reflexivity|]. apply callback_set_safe. exact U.
    - destruct Hp as [[Hp|Hp] _]; discriminate Hp.
    - destruct Hp as [[Hp|Hp] _]; discriminate Hp. }
  destruct ((attr =? BK_WAVEFORM) || (attr =? BK_SAMPLE)) eqn:E2.
  { assert (X : exists data, (match ptr with PNull => Ok None | PData d => Ok (Some d) | _ => Err EBounds end) = Ok data /\
              (forall d, data = Some d -> wdata_ok d)).
    { destruct ptr as [|x|x|x y].
      - exists None. split; [reflexivity|discriminate].
      - cbn in Hp. contradiction.
      - exists (Some x). split; [reflexivity|]. intros d Hd. injection Hd as <-. apply Hp.
      - destruct Hp as [[Hp|Hp] _]; subst attr; discriminate E2. }
    destruct X as (data & -> & HD). cbn [bind].
    destruct (set_data_safe u attr data U HD) as (u' & r & -> & S'). cbn [bind].
    destruct (r <? 0); eauto. }
  destruct (Z.eqb_spec attr BK_SAMPLE_RANGE) as [E3|N3].
  { destruct (Z.eqb_spec (un_waveform u) BK_SAMPLE) as [Es|Es]; cbn [negb]; [|eauto].
    assert (X : exists a b, (match ptr with PNull => Ok (0, -1) | PRange a b => Ok (a, b) | _ => Err EBounds end) = Ok (a, b) /\
              -2147483648 <= a <= 2147483647 /\ -2147483648 <= b <= 2147483647).
    { destruct ptr as [|x|x|x y].
      - exists 0, (-1). split; [reflexivity|lia].
      - cbn in Hp. contradiction.
      - destruct Hp as [[Hp|Hp] _]; subst attr; discriminate.
      - destruct Hp as (_ & H1 & H2). apply in_s32_spec in H1, H2. exists x, y. auto. }
    destruct X as (a & b & -> & Ha & Hb). cbn [bind].
    destruct (range_safe u a b U Es Ha Hb) as (u1 & u2 & -> & E4 & S2). cbn [bind]. rewrite E4. cbn [bind]. eauto. }
  destruct (Z.eqb_spec attr BK_SAMPLE_SUSTAIN_RANGE) as [E3|N4]; [|eauto].
  destruct (Z.eqb_spec (un_waveform u) BK_SAMPLE) as [Es|Es]; cbn [negb]; [|eauto].
  assert (X : exists a b, (match ptr with PNull => Ok (0, 0) | PRange a b => Ok (if a =? b then (0, 0) else (a, b))
              | _ => Err EBounds end) = Ok (a, b) /\
            -2147483648 <= a <= 2147483647 /\ -2147483648 <= b <= 2147483647 /\
            (a = b \/ ptr = PRange a b)).
  { destruct ptr as [|x|x|x y].
    - exists 0, 0. split; [reflexivity|lia].
    - cbn in Hp. contradiction.
    - destruct Hp as [[Hp|Hp] _]; subst attr; discriminate.
    - destruct Hp as (_ & H1 & H2). apply in_s32_spec in H1, H2.
      destruct (Z.eqb_spec x y).
      + exists 0, 0. split; [reflexivity|lia].
      + exists x, y. auto. }
  destruct X as (a & b & -> & Ha & Hb & Hab). cbn [bind].
  destruct (sustain_safe u a b U Es Ha Hb) as (u' & -> & S'); [|cbn [bind]; eauto].
  intros d Hd Hne. destruct Hab as [Hab|Hab]; [subst b; contradiction|]. subst ptr. exact (C E3 d Hd).
Qed.

(** ** Clearing *)

Lemma clear_none u type : unit_safe u -> exists u' r, BKUnitSetData u type None = Ok (u', r) /\ unit_safe u' /\
  (type = BK_WAVEFORM -> un_waveform u' <> BK_CUSTOM /\ (un_waveform u' = BK_SAMPLE -> un_ctx u' <> None)) /\
  (type = BK_SAMPLE -> un_waveform u <> BK_CUSTOM -> un_waveform u' <> BK_CUSTOM /\ un_waveform u' <> BK_SAMPLE).
Proof.
  intros U. destruct (set_data_safe u type None U ltac:(discriminate)) as (u' & r & E & S').
  exists u', r. split; [exact E|]. split; [exact S'|].
  revert E. unfold BKUnitSetData, BKUnitTrySetData.
  assert (K : forall (x : bkunit) y, Ok (x, y) = Ok (u', r) -> u' = x /\ r = y) by (intros; split; congruence).
  destruct (un_ctx u) as [n|] eqn:Ec.
  - cbv zeta. destruct (Z.eqb_spec type BK_WAVEFORM) as [T1|T1].
    + destruct (Z.eqb_spec (un_waveform u) BK_CUSTOM) as [E1|E1]; cbn [bind Z.eqb].
      * ucbn. change ((0 =? BK_CUSTOM) || (0 =? BK_SAMPLE)) with false. intros E. apply K in E. destruct E as [-> _].
        ucbn. rewrite T1. split; [split; discriminate|discriminate].
      * intros E. apply K in E. destruct E as [-> _]. ucbn. rewrite T1.
        split; [split; [auto|rewrite Ec; discriminate]|discriminate].
    + destruct (Z.eqb_spec type BK_SAMPLE) as [T2|T2].
      * destruct (Z.eqb_spec (un_waveform u) BK_SAMPLE) as [E1|E1]; cbn [bind Z.eqb]; intros E; apply K in E;
          destruct E as [-> _]; ucbn; (split; [contradiction|]); intros _ H; split; auto; discriminate.
      * cbn [bind]. change (BK_INVALID_ATTRIBUTE =? 0) with false.
        destruct (_ || _); intros E; apply K in E; destruct E as [-> _]; split; contradiction.
  - cbn [bind]. change (BK_INVALID_STATE =? 0) with false.
    destruct ((un_waveform u =? BK_CUSTOM) || (un_waveform u =? BK_SAMPLE)) eqn:Eo; intros E; apply K in E; destruct E as [-> _].
    + ucbn. split; intros; split; discriminate.
    + split; intros; split; lia.
Qed.

Theorem clear_safe u : unit_safe u -> exists u', BKUnitClear u = Ok u' /\ unit_safe u' /\
  un_waveform u' <> BK_CUSTOM /\ un_waveform u' <> BK_SAMPLE.
Proof.
  intros U. unfold BKUnitClear.
  destruct (clear_none u BK_WAVEFORM U) as (u1 & r1 & -> & S1 & H1 & _). cbn [bind].
  destruct (H1 eq_refl) as [H2 _].
  destruct (clear_none u1 BK_SAMPLE S1) as (u2 & r2 & -> & S2 & _ & H3). cbn [bind].
  destruct (H3 eq_refl H2) as [H4 H5]. clear H1 H2 H3 S1 u1 r1 U.
  cbv zeta. eexists. split; [reflexivity|]. ucbn.
  destruct S2 as [W [T _]].
  assert (He : 0 <= match sm_data (un_sample u2) with Some d => w_numFrames d | None => 0 end <= 1073741824).
  { destruct (sm_data (un_sample u2)) as [d|] eqn:Ed; [|lia]. apply wdata_frames. apply (wf_data u2 W). exact Ed. }
  destruct (Z.gtb_spec 0 (match sm_data (un_sample u2) with Some d => w_numFrames d | None => 0 end)) as [Hg|Hg]; [lia|].
  split; [|split; [exact H4|exact H5]]. split; [|split].
  - wf_destruct W. constructor; ucbn; auto; unfold BK_FINT20_UNIT; try lia.
  - ucbn. intros E. destruct (T E) as [T1 T2]. split.
    + split; [apply T1|]. ucbn. intros; contradiction.
    + exact T2.
  - ucbn. intros; contradiction.
Qed.

Theorem reset_safe u : unit_safe u -> exists u', BKUnitReset u = Ok u' /\ unit_safe u'.
Proof.
  intros U. unfold BKUnitReset. destruct (clear_safe u U) as (u1 & -> & [W _] & _). cbn [bind].
  eexists. split; [reflexivity|].
  apply no_wave_safe with (u := set_lastPulse (set_time (set_phase u1 0) 0) (repeat 0 (Z.to_nat BK_MAX_CHANNELS))).
  wf_destruct W. change (Z.to_nat BK_MAX_CHANNELS) with 8%nat. constructor; ucbn; auto; try lia.
  split; [reflexivity|]. repeat constructor; unfold is_frame; lia.
Qed.

(** ** Life and histories *)

Theorem init_safe w : exists u, BKUnitInit w = Ok u /\ unit_safe u.
Proof.
  unfold BKUnitInit.
  assert (W0 : forall s, s = un_sample unit0 -> unit_wf (set_sm (set_duty unit0 2) (s_timeFrac (s_period s BK_FINT20_UNIT) 0))).
  { intros s ->. constructor; ucbn; try lia; try discriminate; auto.
    - split; [reflexivity|]. repeat constructor; discriminate.
    - split; [reflexivity|]. repeat constructor; unfold is_frame; discriminate.
    - cbn. lia. - cbn. lia. - cbn. lia. - cbn. lia. - cbn. lia.
    - unfold BK_FINT20_UNIT. lia.
    - cbn. lia. - cbn. lia. - cbn. lia. - cbn. lia. - cbn. lia.
    - cbn. wave_consts. lia. }
  change (BKUnitSetAttr unit0 BK_DUTY_CYCLE BK_DEFAULT_DUTY_CYCLE) with (Ok (set_duty unit0 2, 0)). cbn [bind].
  unfold BKUnitSetAttr. cbv zeta.
  change (BK_WAVEFORM =? BK_DUTY_CYCLE) with false. change (BK_WAVEFORM =? BK_WAVEFORM) with true. cbv iota.
  specialize (W0 _ eq_refl).
  set (v := set_sm (set_duty unit0 2) (s_timeFrac (s_period (un_sample unit0) BK_FINT20_UNIT) 0)) in *.
  assert (S0 : unit_safe v).
  { split; [exact W0|]. change (un_waveform v) with 0. wave_consts. lia. }
  destruct (waveform_phases (s32 w)) as [count|] eqn:Ew.
  - cbn [bind]. eexists. split; [reflexivity|]. change (un_waveform (set_ph (set_duty unit0 2) _)) with 0.
    destruct (Z.eqb_spec 0 (s32 w)) as [E|E]; cbn [negb].
    + rewrite <- E in Ew. exact (table_again v count S0 Ew).
    + apply (table_safe v (s32 w) count W0 Ew). change (un_waveform v) with 0. auto.
  - cbn [bind]. eexists. split; [reflexivity|]. exact S0.
Qed.

Lemma attach_safe u n t : unit_safe u -> 1 <= n <= 8 -> 0 <= t < 4294967296 ->
  uop_careful u (UAttach n t) -> unit_safe (fst (BKUnitAttach u n t)).
Proof.
  intros U Hn Ht C. unfold BKUnitAttach. destruct (un_ctx u) eqn:Ec; [exact U|]. cbn [fst].
  destruct U as [W [T G]]. split; [|split].
  - wf_destruct W. constructor; ucbn; auto. intros m Hm. injection Hm as <-. exact Hn.
  - exact T.
  - intros E. specialize (G E). cbn in C. sg_destruct G. constructor; ucbn; auto. intros m Hm. injection Hm as <-. lia.
Qed.

Lemma detach_safe u : unit_safe u -> unit_safe (BKUnitDetach u).
Proof.
  intros U. unfold BKUnitDetach. destruct (un_ctx u) eqn:Ec; [|exact U].
  destruct U as [W [T G]]. split; [|split].
  - wf_destruct W. constructor; ucbn; auto; try lia. discriminate.
  - exact T.
  - intros E. specialize (G E). sg_destruct G. constructor; ucbn; auto. discriminate.
Qed.

Theorem step_safe fuel u o : unit_safe u -> uop_ok o -> uop_careful u o -> uop_timely fuel u o ->
  exists u' l, ustep fuel u o = Ok (u', l) /\ unit_safe u'.
Proof.
  intros U Ho C Tm. destruct o as [attr value|attr ptr|event|t|t|n t| | |]; cbn [ustep].
  - destruct Ho as [H1 H2]. pose proof (proj1 (in_s32_spec _) H2) as H2'.
    assert (H1' : u32 attr = attr) by (apply u32_id; unfold in_u32 in H1; lia).
    rewrite H1', s32_id by exact H2'.
    destruct (attr_safe u attr value U H2 C) as (u' & r & -> & S'). cbn [bind]. eauto.
  - assert (H1' : u32 attr = attr) by (destruct Ho as [H1 _]; apply u32_id; unfold in_u32 in H1; lia).
    rewrite H1'. destruct (ptr_safe u attr ptr U Ho C) as (u' & r & -> & S'). cbn [bind]. eauto.
  - destruct (data_event_safe u event U) as (u' & r & -> & S').
    { destruct event; [|discriminate]. intros d Hd. injection Hd as <-. exact Ho. }
    cbn [bind]. eauto.
  - cbn in Ho. assert (Ht : 0 <= t < 4294967296) by (unfold in_u32 in Ho; lia). rewrite u32_id by exact Ht.
    destruct (run_safe fuel u t U C Tm ltac:(lia)) as (u' & l & -> & S'). eauto.
  - eexists _, _. split; [reflexivity|]. unfold BKUnitEnd. destruct U as [W [T G]].
    split; [apply wf_time_set; [exact W|apply u32_range]|]. split; [exact T|].
    intros E. apply good_time. apply G. exact E.
  - destruct Ho as [H1 H2]. assert (Ht : 0 <= t < 4294967296) by (unfold in_u32 in H2; lia).
    rewrite u32_id by exact Ht. eexists _, _. split; [reflexivity|]. apply attach_safe; auto.
  - eexists _, _. split; [reflexivity|]. apply detach_safe. exact U.
  - destruct (clear_safe u U) as (u' & -> & S' & _). cbn [bind]. eauto.
  - destruct (reset_safe u U) as (u' & -> & S'). cbn [bind]. eauto.
Qed.

Theorem history_safe fuel ops : forall u, unit_safe u -> Forall uop_ok ops ->
  all_steps (fun u o => uop_careful u o /\ uop_timely fuel u o) fuel u ops ->
  exists u' ls, uruns fuel u ops = Ok (u', ls) /\ unit_safe u'.
Proof.
  induction ops as [|o ops IH]; intros u U Ho Hs; cbn [uruns].
  - eauto.
  - inversion Ho as [|? ? H1 H2]; subst. cbn [all_steps] in Hs. destruct Hs as [[C Tm] Hs].
    destruct (step_safe fuel u o U H1 C Tm) as (u1 & l & E & S1). rewrite E in Hs. rewrite E. cbn [bind].
    destruct (IH u1 S1 H2 Hs) as (u' & ls & -> & S'). cbn [bind]. eauto.
Qed.
