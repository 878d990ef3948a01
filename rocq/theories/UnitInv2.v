(** Every careful use of a unit is defined and leaves a safe state. *)
From Verif Require Import CInt CIntFacts DataModel UnitModel UnitSpec UnitProofs UnitProofs2 UnitProofs3 UnitInv.
Ltac Zify.zify_post_hook ::= idtac.

Lemma safe_playing u : unit_wf u -> sample_good u -> 2 <= sm_length (un_sample u) ->
  (sm_repeatMode (un_sample u) = BK_PALINDROME ->
   Z.abs (sm_period (un_sample u)) <= (sm_length (un_sample u) - 1) * 1048576) -> playing u.
Proof. intros. constructor; assumption. Qed.

Lemma sample_frame_wave fuel u n c time t u' t' l : sample_loop fuel u n c time t = Ok (u', t', l) ->
  -2147483648 <= time <= 2147483647 ->
  un_waveform u' = un_waveform u /\ un_ctx u' = un_ctx u /\ un_duty u' = un_duty u.
Proof.
  intros H Ht. apply sample_loop_frame in H; [|exact Ht].
  destruct H as [F _]. destruct F as (F1 & F2 & F3 & F4 & F5 & _). auto.
Qed.

Theorem run_safe fuel u t : unit_safe u -> uop_careful u (URun t) -> uop_timely fuel u (URun t) -> 0 <= t ->
  exists u' l, BKUnitRun fuel u t = Ok (u', l) /\ unit_safe u'.
Proof.
  intros [W [T S0]] C (Hc & Ht1 & Ht2 & Hf) Ht. unfold BKUnitRun.
  destruct (un_ctx u) as [n|] eqn:Ec; [clear Hc|congruence].
  assert (Hn : 1 <= n <= 8) by (apply (wf_ctx u W); exact Ec).
  assert (Same : forall x, 0 <= x < 4294967296 -> unit_safe (set_time u x)).
  { intros x Hx. split; [apply wf_time_set; assumption|]. split.
    - exact T.
    - intros E. apply good_time. apply S0. exact E. }
  assert (Ht3 : 0 <= t < 4294967296) by (pose proof (wf_period u W); lia).
  cbv zeta.
  destruct (un_period u =? 0) eqn:E0.
  { cbn [bind]. eexists _, _. split; [reflexivity|]. apply Same. pose proof (wf_time u W).
    destruct (_ <? _); lia. }
  destruct ((BK_SQUARE <=? un_waveform u) && (un_waveform u <=? BK_CUSTOM)) eqn:E1.
  { assert (HW : BK_SQUARE <= un_waveform u <= BK_CUSTOM) by lia. destruct (T HW) as [T1 T2].
    pose proof (wf_period u W).
    destruct (run_waveform_safe fuel u n t W T1 T2 ltac:(lia) Hn Ht Ht1 Hf)
      as (u' & t' & l & -> & W' & T1' & T2' & Ht' & Ew & _).
    cbn [bind]. eexists _, _. split; [reflexivity|]. split; [|split].
    - apply wf_time_set; [exact W'|]. destruct (_ <? _); lia.
    - intros _. split; [exact T1'|exact T2'].
    - intros Es. change (un_waveform (set_time u' (if t' <? t then t else t'))) with (un_waveform u') in Es.
      rewrite Ew in Es. rewrite Es in HW. unfold BK_CUSTOM, BK_SAMPLE in HW. lia. }
  destruct (un_waveform u =? BK_SAMPLE) eqn:E2.
  - apply Z.eqb_eq in E2. specialize (S0 E2). unfold BKUnitRunSample.
    destruct (negb (un_mute u =? 0)).
    { cbn [bind]. eexists _, _. split; [reflexivity|]. apply Same. destruct (_ <? _); lia. }
    pose proof (wf_range u W) as [R1 R2].
    rewrite (s32_id (sm_end _)), (s32_id (sm_offset _)) by lia.
    rewrite chk32_ok by lia. cbn [bind].
    assert (Ha : abs32 (sm_end (un_sample u) - sm_offset (un_sample u)) = Ok (sm_length (un_sample u))).
    { rewrite (sg_length u S0). unfold abs32. destruct (Z.ltb_spec (sm_end (un_sample u) - sm_offset (un_sample u)) 0).
      - rewrite chk32_ok by lia. f_equal. lia.
      - f_equal. lia. }
    rewrite Ha. cbn [bind]. destruct (Z.ltb_spec (sm_length (un_sample u)) 2) as [L|L].
    { cbn [bind]. eexists _, _. split; [reflexivity|]. apply Same. destruct (_ <? _); lia. }
    pose proof (safe_playing u W S0 L (C E2)) as P. pose proof (wf_time u W) as Wt.
    destruct (sample_loop_ok fuel u n (un_sustain u && negb (un_release u)) (s32 (un_time u)) t P Ec)
      as (u' & t' & l & E & P').
    + intros Hb. apply andb_true_iff in Hb. apply Hb.
    + rewrite u32_s32 by exact Wt. destruct (Z.lt_ge_cases (un_time u) t); [left|right; lia].
      rewrite s32_id by lia. lia.
    + apply s32_range.
    + exact Ht.
    + exact Ht2.
    + rewrite u32_s32 by exact Wt. destruct (Z.lt_ge_cases (un_time u) t); [left|right; lia].
      rewrite s32_id by lia. lia.
    + rewrite E. cbn [bind]. eexists _, _. split; [reflexivity|].
      apply sample_frame_wave in E; [|apply s32_range]. destruct E as (Ew & _).
      destruct P' as [W' G' _ _]. split; [|split].
      * apply wf_time_set; [exact W'|]. pose proof (u32_range t'). destruct (_ <? _); lia.
      * intros HW. exfalso. revert HW.
        match goal with |- context [set_time u' ?x] => change (un_waveform (set_time u' x)) with (un_waveform u') end.
        rewrite Ew, E2. unfold BK_SAMPLE, BK_CUSTOM. lia.
      * intros _. apply good_time. exact G'.
  - cbn [bind]. eexists _, _. split; [reflexivity|]. apply Same. pose proof (wf_time u W).
    destruct (_ <? _); lia.
Qed.

(** ** Data *)

Lemma abs32_sper u : unit_wf u -> abs32 (sm_period (un_sample u)) = Ok (Z.abs (sm_period (un_sample u))).
Proof. intros W. apply abs32_ok. apply W. Qed.

Lemma wdata_frames d : wdata_ok d -> 0 <= w_numFrames d <= 1073741824 /\ w_numFrames d <= Z.of_nat (length (w_frames d)).
Proof. intros (H1 & H2 & H3 & H4 & _). rewrite H4. nia. Qed.

Ltac wave_consts := unfold BK_SQUARE, BK_TRIANGLE, BK_NOISE, BK_SAWTOOTH, BK_SINE, BK_CUSTOM, BK_SAMPLE in *.

(** The unit after a waveform was set, and after a sample was set. *)
Lemma custom_safe u d : unit_wf u -> wdata_ok d -> 2 <= w_numFrames d ->
  unit_safe (set_sm (set_ph (set_waveform u BK_CUSTOM)
    (p_phase (p_count (un_phase u) (BKMin (w_numFrames d) BK_WAVE_MAX_LENGTH)) 0))
    (s_repeatCount (s_range (un_sample u) 0 (w_numFrames d) (Some (w_frames d, 0))) 0)).
Proof.
  intros W D Hd. pose proof (wdata_frames d D) as [D1 D2].
  assert (Hm : 2 <= BKMin (w_numFrames d) BK_WAVE_MAX_LENGTH <= 64 /\
               BKMin (w_numFrames d) BK_WAVE_MAX_LENGTH <= w_numFrames d).
  { unfold BKMin, BK_WAVE_MAX_LENGTH. destruct (Z.ltb_spec (w_numFrames d) 64); lia. }
  split; [|split].
  - wf_destruct W. constructor; ucbn; auto; try (wave_consts; lia).
  - intros _. split.
    + split; [ucbn; apply W|]. ucbn. intros _. split; [lia|]. eexists. split; [reflexivity|].
      split; [lia|]. apply D.
    + split; ucbn; [lia|]. right. left. split; [reflexivity|]. lia.
  - ucbn. discriminate.
Qed.

Lemma sample_safe u d n period : unit_wf u -> wdata_ok d -> 2 <= w_numFrames d -> un_ctx u = Some n ->
  (w_numChannels d = 1 \/ w_numChannels d = n) -> period = Z.abs (sm_period (un_sample u)) ->
  (forall d', sm_data (un_sample u) = Some d' -> w_numChannels d' = w_numChannels d) ->
  unit_safe (set_flags (set_sm (set_ph (set_waveform u BK_SAMPLE) (p_phase (p_count (un_phase u) 1) 0))
    (mk_sample (sm_data (un_sample u)) (w_numChannels d) (w_numFrames d) 0 (w_numFrames d)
               0 0 0 0 (sm_timeFrac (un_sample u)) period (sm_callback (un_sample u)) (Some (w_frames d, 0))))
    false false false).
Proof.
  intros W D Hd Hn Hch -> Hdat. pose proof (wdata_frames d D) as [D1 D2]. destruct D as (D3 & D4 & D5 & D6 & D7).
  split; [|split].
  - wf_destruct W. constructor; ucbn; auto; try lia; try (wave_consts; lia).
  - ucbn. wave_consts. lia.
  - intros _. constructor; ucbn; auto.
    + exists (w_frames d), 0. split; [reflexivity|]. split; [lia|]. split; [lia|]. split; [lia|exact D7].
    + rewrite Hn. intros m E. injection E as <-. exact Hch.
    + lia.
    + lia.
    + discriminate.
Qed.

(** Removing data. *)
Lemma none_safe u s fl1 fl2 fl3 ph : unit_wf u -> 0 <= ph_phase ph < 4294967296 ->
  0 <= ph_wrap ph < 2147483648 /\ -2147483648 <= ph_wrapCount ph < 2147483648 -> 0 <= ph_count ph <= 64 ->
  sm_data s = sm_data (un_sample u) -> sm_timeFrac s = sm_timeFrac (un_sample u) ->
  sm_period s = sm_period (un_sample u) -> 0 <= sm_repeatMode s <= 2 ->
  sm_repeatCount s = sm_repeatCount (un_sample u) -> sm_length s = sm_length (un_sample u) ->
  sm_offset s = 0 -> sm_end s = 0 ->
  0 <= sm_sustainOffset s <= 1073741824 /\ 0 <= sm_sustainEnd s <= 1073741824 ->
  unit_safe (set_flags (set_ph (set_sm (set_waveform u 0) s) ph) fl1 fl2 fl3).
Proof.
  intros W H1 H2 H3 E1 E2 E3 H4 E4 E5 E6 E7 H5. split; [|split].
  - wf_destruct W. constructor; ucbn; auto; try lia; rewrite ?E1, ?E2, ?E3, ?E4, ?E5, ?E6, ?E7; auto; try lia;
      try (wave_consts; lia).
  - ucbn. wave_consts. lia.
  - ucbn. wave_consts. lia.
Qed.

Lemma wf_data_set u d : unit_wf u -> (forall x, d = Some x -> wdata_ok x) -> unit_wf (unit_data_state u d).
Proof. intros W H. wf_destruct W. constructor; ucbn; auto. Qed.

Lemma drop_data u : unit_safe u -> unit_safe (unit_data_state u None).
Proof.
  intros [W [T G]]. split; [apply wf_data_set; [exact W|discriminate]|]. split.
  - exact T.
  - intros E. specialize (G E). sg_destruct G. constructor; ucbn; auto. discriminate.
Qed.

Lemma no_wave_safe u : unit_wf u -> unit_safe (set_waveform u 0).
Proof.
  intros W. split; [|split].
  - wf_destruct W. constructor; ucbn; auto. wave_consts. lia.
  - ucbn. wave_consts. lia.
  - ucbn. wave_consts. lia.
Qed.

(** [BKUnitTrySetData]: a safe state stays safe, and what is registered afterwards fits. *)
Lemma try_safe u data type dispose : unit_wf u ->
  (un_waveform u <> 0 -> unit_safe u) ->
  (forall d, data = Some d -> wdata_ok d) ->
  (type = BK_SAMPLE -> dispose = false -> forall d d', data = Some d -> sm_data (un_sample u) = Some d' ->
   w_numChannels d' = w_numChannels d) ->
  exists u' r, BKUnitTrySetData u data type dispose = Ok (u', r) /\ unit_safe u'.
Proof.
  intros W G D E.
  assert (U : unit_safe u).
  { destruct (Z.eq_dec (un_waveform u) 0) as [Z0|Z0]; [|auto]. split; [exact W|]. rewrite Z0. wave_consts. lia. }
  unfold BKUnitTrySetData. destruct (un_ctx u) as [n|] eqn:Ec; [|eauto]. cbv zeta.
  destruct (type =? BK_WAVEFORM).
  - destruct dispose; [|destruct data as [d|]].
    + destruct (un_waveform u =? BK_CUSTOM); [|eauto]. eexists _, _. split; [reflexivity|].
      pose proof (none_safe u (s_range (un_sample u) 0 0 None) (un_sustain u) (un_jump u) (un_release u)
        (un_phase u) W (wf_phase u W) (wf_wrap u W) (wf_count u W) eq_refl eq_refl eq_refl (wf_mode u W)
        eq_refl eq_refl eq_refl eq_refl (wf_srange u W)) as Q. exact Q.
    + destruct (Z.geb_spec (w_numFrames d) 2); [|eauto].
      eexists _, _. split; [reflexivity|]. apply custom_safe; [exact W|apply D; reflexivity|lia].
    + destruct (un_waveform u =? BK_CUSTOM); [|eauto]. eexists _, _. split; [reflexivity|].
      pose proof (none_safe u (s_range (un_sample u) 0 0 None) (un_sustain u) (un_jump u) (un_release u)
        (un_phase u) W (wf_phase u W) (wf_wrap u W) (wf_count u W) eq_refl eq_refl eq_refl (wf_mode u W)
        eq_refl eq_refl eq_refl eq_refl (wf_srange u W)) as Q. exact Q.
  - destruct (type =? BK_SAMPLE) eqn:Et; [|eauto].
    assert (N : exists u' r, (if un_waveform u =? BK_SAMPLE
       then Ok (set_flags (set_phase (set_sm (set_waveform u 0)
              (s_repeatMode (s_sustain (s_range (un_sample u) 0 0 None) 0 0) 0)) 0) false false false, 0)
       else Ok (u, 0)) = Ok (u', r) /\ unit_safe u').
    { destruct (un_waveform u =? BK_SAMPLE); [|eauto]. eexists _, _. split; [reflexivity|].
      pose proof (none_safe u (s_repeatMode (s_sustain (s_range (un_sample u) 0 0 None) 0 0) 0) false false false
        (p_phase (un_phase u) 0) W ltac:(ucbn; lia) (wf_wrap u W) (wf_count u W) eq_refl eq_refl eq_refl
        ltac:(ucbn; lia) eq_refl eq_refl eq_refl eq_refl ltac:(ucbn; lia)) as Q. exact Q. }
    destruct dispose; [exact N|destruct data as [d|]; [clear N|exact N]].
    apply Z.eqb_eq in Et.
    destruct (negb (w_numChannels d =? 1) && negb (w_numChannels d =? n)) eqn:En; [eauto|].
    destruct (Z.ltb_spec (w_numFrames d) 2); [eauto|].
    rewrite abs32_sper by exact W. cbn [bind]. eexists _, _. split; [reflexivity|].
    apply sample_safe with (n := n); auto. lia.
Qed.

(** The registered data does not matter to [BKUnitTrySetData]. *)
Lemma try_data_state u x data type dispose :
  BKUnitTrySetData (unit_data_state u x) data type dispose =
  let* (u', r) := BKUnitTrySetData u data type dispose in Ok (unit_data_state u' x, r).
Proof.
  unfold BKUnitTrySetData. change (un_ctx (unit_data_state u x)) with (un_ctx u).
  destruct (un_ctx u) as [n|]; [|reflexivity]. cbv zeta.
  change (un_waveform (unit_data_state u x)) with (un_waveform u).
  change (sm_period (un_sample (unit_data_state u x))) with (sm_period (un_sample u)).
  destruct (type =? BK_WAVEFORM).
  - destruct (if dispose then None else data) as [d|].
    + destruct (w_numFrames d >=? 2); reflexivity.
    + destruct (un_waveform u =? BK_CUSTOM); reflexivity.
  - destruct (type =? BK_SAMPLE); [|reflexivity].
    destruct (if dispose then None else data) as [d|].
    + destruct (_ && _); [reflexivity|]. destruct (_ <? _); [reflexivity|].
      destruct (abs32 _); reflexivity.
    + destruct (un_waveform u =? BK_SAMPLE); reflexivity.
Qed.

Lemma try_props u data type dispose u' r : BKUnitTrySetData u data type dispose = Ok (u', r) ->
  sm_data (un_sample u') = sm_data (un_sample u) /\ (r = 0 \/ r < 0) /\
  (r = 0 -> forall d, data = Some d -> dispose = false ->
   type = BK_WAVEFORM /\ un_waveform u' = BK_CUSTOM \/
   type = BK_SAMPLE /\ sm_numChannels (un_sample u') = w_numChannels d).
Proof.
  unfold BKUnitTrySetData. intros H.
  destruct (un_ctx u) as [n|].
  2:{ assert (u' = u /\ r = BK_INVALID_STATE) as [-> ->] by (split; congruence).
      split; [reflexivity|]. split; [right; reflexivity|discriminate]. }
  cbv zeta in H.
  assert (K : forall (x : bkunit) y, Ok (x, y) = Ok (u', r) -> u' = x /\ r = y) by (intros; split; congruence).
  destruct (Z.eqb_spec type BK_WAVEFORM) as [T1|T1].
  - destruct dispose; [|destruct data as [d|]].
    + destruct (un_waveform u =? BK_CUSTOM); apply K in H; destruct H as [-> ->];
        (split; [reflexivity|]); (split; [lia|intros _ d _ Hd; discriminate Hd]).
    + destruct (w_numFrames d >=? 2); apply K in H; destruct H as [-> ->];
        (split; [reflexivity|]); (split; [auto; right; reflexivity|]).
      * intros _ d' Hd' Hf'. left. split; [exact T1|reflexivity].
      * discriminate.
    + destruct (un_waveform u =? BK_CUSTOM); apply K in H; destruct H as [-> ->];
        (split; [reflexivity|]); (split; [lia|discriminate]).
  - destruct (Z.eqb_spec type BK_SAMPLE) as [T2|T2].
    2:{ apply K in H. destruct H as [-> ->]. split; [reflexivity|]. split; [right; reflexivity|discriminate]. }
    destruct dispose; [|destruct data as [d|]].
    + destruct (un_waveform u =? BK_SAMPLE); apply K in H; destruct H as [-> ->];
        (split; [reflexivity|]); (split; [lia|intros _ d _ Hd; discriminate Hd]).
    + destruct (_ && _); [|destruct (_ <? _)].
      * apply K in H. destruct H as [-> ->]. split; [reflexivity|]. split; [right; reflexivity|discriminate].
      * apply K in H. destruct H as [-> ->]. split; [reflexivity|]. split; [right; reflexivity|discriminate].
      * apply bind_ok in H. destruct H as (period & _ & H). apply K in H. destruct H as [-> ->].
        split; [reflexivity|]. split; [auto|]. intros _ d' Hd _. injection Hd as <-. right. split; [exact T2|reflexivity].
    + destruct (un_waveform u =? BK_SAMPLE); apply K in H; destruct H as [-> ->];
        (split; [reflexivity|]); (split; [lia|discriminate]).
Qed.

(** A safe unit stays safe when other data is registered: that of the sample played. *)
Lemma data_safe u data : unit_safe u -> (forall d, data = Some d -> wdata_ok d) ->
  (un_waveform u = BK_SAMPLE -> forall d, data = Some d -> w_numChannels d = sm_numChannels (un_sample u)) ->
  unit_safe (unit_data_state u data).
Proof.
  intros [W [T G]] D C. split; [apply wf_data_set; assumption|]. split; [exact T|].
  intros E. specialize (G E). sg_destruct G. constructor; ucbn; auto.
Qed.

Lemma try_any u data type dispose : unit_safe u -> (forall d, data = Some d -> wdata_ok d) ->
  exists v r, BKUnitTrySetData (unit_data_state u None) data type dispose = Ok (v, r) /\ unit_safe v /\
    forall x, BKUnitTrySetData (unit_data_state u x) data type dispose = Ok (unit_data_state v x, r).
Proof.
  intros U D.
  assert (U0 : unit_safe (unit_data_state u None)) by (apply drop_data; exact U).
  destruct (try_safe (unit_data_state u None) data type dispose) as (v & r & Ev & Sv).
  { apply U0. } { intros _. exact U0. } { exact D. } { intros. discriminate. }
  exists v, r. split; [exact Ev|]. split; [exact Sv|]. intros x.
  change (unit_data_state u x) with (unit_data_state (unit_data_state u None) x).
  rewrite try_data_state, Ev. reflexivity.
Qed.

Lemma data_self u : unit_data_state u (sm_data (un_sample u)) = u.
Proof. destruct u as [? ? ? ? ? ? ? ? ? [? ? ? ? ? ? ? ? ? ? ? ? ?] ? ? ?]. reflexivity. Qed.

Lemma set_data_safe u type data : unit_safe u -> (forall d, data = Some d -> wdata_ok d) ->
  exists u' r, BKUnitSetData u type data = Ok (u', r) /\ unit_safe u'.
Proof.
  intros U D. unfold BKUnitSetData.
  destruct (try_any u data type false U D) as (v & r & Ev & Sv & Ex).
  pose proof (Ex (sm_data (un_sample u))) as Eu. rewrite data_self in Eu. rewrite Eu. cbn [bind].
  pose proof (try_props _ _ _ _ _ _ Ev) as (_ & _ & Hp).
  destruct (Z.eqb_spec r 0) as [Er|Er].
  - eexists _, _. split; [reflexivity|].
    change (unit_safe (unit_data_state v data)). apply data_safe; [exact Sv|exact D|].
    intros Es d Hd. destruct (Hp Er d Hd eq_refl) as [[_ H]|[_ H]]; [|auto].
    rewrite H in Es. discriminate Es.
  - change (un_waveform (unit_data_state v (sm_data (un_sample u)))) with (un_waveform v).
    assert (Du : forall d, sm_data (un_sample u) = Some d -> wdata_ok d) by apply U.
    destruct ((un_waveform v =? BK_CUSTOM) || (un_waveform v =? BK_SAMPLE)) eqn:Ecs.
    + eexists _, _. split; [reflexivity|]. apply no_wave_safe. apply wf_data_set; [apply Sv|exact Du].
    + eexists _, _. split; [reflexivity|]. apply data_safe; [exact Sv|exact Du|].
      intros Es. rewrite Es in Ecs. discriminate Ecs.
Qed.

Lemma data_event_safe u event : unit_safe u -> (forall d, event = Some d -> wdata_ok d) ->
  exists u' r, unit_data_event u event = Ok (u', r) /\ unit_safe u'.
Proof.
  intros U D. unfold unit_data_event. destruct (sm_data (un_sample u)) as [d0|] eqn:E0; [|eauto].
  assert (Gen : forall type dispose x, (dispose = false -> x <> None) -> (forall d, x = Some d -> wdata_ok d) ->
    exists v r, BKUnitTrySetData (unit_data_state u x) x type dispose = Ok (unit_data_state v x, r) /\
      unit_safe v /\ (r = 0 \/ r < 0) /\ (r = 0 -> dispose = false -> unit_safe (unit_data_state v x))).
  { intros type dispose x Hx Dx. destruct (try_any u x type dispose U Dx) as (v & r & Ev & Sv & Ex).
    exists v, r. split; [apply Ex|]. split; [exact Sv|].
    pose proof (try_props _ _ _ _ _ _ Ev) as (_ & Hr & Hp). split; [exact Hr|]. intros Er Ed.
    apply data_safe; [exact Sv|exact Dx|]. intros Es d Hd.
    destruct (Hp Er d Hd Ed) as [[_ H]|[_ H]]; [|auto]. rewrite H in Es. discriminate Es. }
  assert (Cb : forall dispose x, (dispose = false -> x <> None) -> (forall d, x = Some d -> wdata_ok d) ->
    exists v r, BKUnitSampleDataStateCallback dispose (unit_data_state u x) = Ok (unit_data_state v x, r) /\
      unit_safe v /\ (r = 0 \/ r < 0) /\ (r = 0 -> dispose = false -> unit_safe (unit_data_state v x))).
  { intros dispose x Hx Dx. unfold BKUnitSampleDataStateCallback.
    change (un_waveform (unit_data_state u x)) with (un_waveform u).
    change (sm_data (un_sample (unit_data_state u x))) with x.
    destruct (un_waveform u =? BK_CUSTOM); [apply Gen; assumption|].
    destruct (un_waveform u =? BK_SAMPLE); [apply Gen; assumption|].
    exists u, (-1). split; [reflexivity|]. split; [exact U|]. split; [lia|]. discriminate. }
  destruct event as [d|].
  - destruct (Cb false (Some d) ltac:(discriminate) D) as (v & r & -> & Sv & Hr & H). cbn [bind].
    eexists _, _. split; [reflexivity|]. destruct (Z.ltb_spec r 0).
    + change (unit_safe (unit_data_state v None)). apply drop_data. exact Sv.
    + apply H; [lia|reflexivity].
  - destruct (Cb true (sm_data (un_sample u)) ltac:(discriminate)) as (v & r & Ec & Sv & _ & _).
    { apply U. }
    rewrite data_self in Ec. rewrite Ec. cbn [bind]. eexists _, _. split; [reflexivity|].
    change (unit_safe (unit_data_state v None)). apply drop_data. exact Sv.
Qed.
