(** What a track reads after [BKTrackReset]. *)
From Verif Require Import CInt CIntFacts TimeModel Kernels BufferModel DataModel UnitModel InterpModel ToneModel SequenceModel TrackModel ContextModel ResetSame TrackSame ReplaySame ReplayProofs.
Ltac Zify.zify_post_hook ::= idtac.

(** [BKGetAttr] succeeds with this value. *)
Definition reads (t : track) (attr value : Z) : Prop := BKTrackGetAttr t attr = Ok (0, Some value).

(** The last three calls of [BKTrackClear]. *)
Lemma rest_restart fuel t : un_duty (tr_unit t) = 4 -> un_sustain (tr_unit t) = false -> has t FInstr = false ->
  (let* (t, _) := BKTrackSetAttr fuel t BK_DUTY_CYCLE 4 in let* (t, _) := BKTrackSetAttr fuel t BK_NOTE BK_NOTE_MUTE in let* (t, _) := BKTrackSetAttr fuel t BK_MUTE 1 in Ok t) =
  Ok (t_unit (put (t_note (t_curNote (put (t_duty t 4) FDuty true) (-1)) (BKSlideStateHalt (tr_note t) true)) FNote true) (set_mute (tr_unit t) 1)).
Proof.
  intros H1 H2 H3.
  change (BKTrackSetAttr fuel t BK_DUTY_CYCLE 4) with (let* (u, ret) := BKUnitSetAttr (tr_unit t) BK_DUTY_CYCLE 4 in let t := t_unit t u in let t := if ret =? 0 then t_duty t (s32 (un_duty u)) else t in Ok (put t FDuty true, ret)).
  assert (ED : BKUnitSetAttr (tr_unit t) BK_DUTY_CYCLE 4 = Ok (tr_unit t, 0)).
  { transitivity (if negb (un_duty (tr_unit t) =? 4) then Ok (set_duty (if (un_waveform (tr_unit t) =? BK_SQUARE) && (4 >? un_duty (tr_unit t)) && (ph_phase (un_phase (tr_unit t)) <? 4) then set_phase (tr_unit t) 0 else (tr_unit t)) 4, 0) else Ok (tr_unit t, 0)); [reflexivity|]. rewrite H1. reflexivity. }
  rewrite ED. cbn [bind]. cbv zeta. rewrite H1. change (s32 4) with 4. change (0 =? 0) with true. cbv iota. cbn [bind].
  change (BKTrackSetAttr fuel ?x BK_NOTE BK_NOTE_MUTE) with (let* t := set_note_mute (track_set_phase fuel) x in Ok (t, 0)).
  unfold set_note_mute. cbv zeta.
  match goal with |- context [has ?x FInstr] => change (has x FInstr) with (has t FInstr) end. rewrite H3. cbv iota. cbn [bind]. unfold unit_attr. cbn [tr_unit t_unit t_note t_curNote put t_flags t_duty].
  change (BKUnitSetAttr (tr_unit t) BK_MUTE 1) with (Ok (set_mute (tr_unit t) 1, 0)). cbn [bind tr_unit t_unit].
  assert (ER : BKUnitSetAttr (set_mute (tr_unit t) 1) BK_FLAG_RELEASE 0 = Ok (set_mute (tr_unit t) 1, 0)).
  { transitivity (if un_sustain (tr_unit t) then Ok (set_flags (set_mute (tr_unit t) 1) (un_sustain (tr_unit t)) (un_jump (tr_unit t)) false, 0) else Ok (set_mute (tr_unit t) 1, 0)); [reflexivity|]. rewrite H2. reflexivity. }
  rewrite ER. cbn [bind].
  change (BKTrackSetAttr fuel ?x BK_MUTE 1) with (let* (u, ret) := BKUnitSetAttr (tr_unit x) BK_MUTE 1 in Ok (t_unit x u, ret)). cbn [tr_unit t_unit put t_flags].
  change (BKUnitSetAttr (set_mute (tr_unit t) 1) BK_MUTE 1) with (Ok (set_mute (set_mute (tr_unit t) 1) 1, 0)). cbn [bind]. destruct t. reflexivity.
Qed.
(** The calls before. *)
Lemma wave_restart fuel x v cnt n r : waveform_phases v = Some cnt -> un_ctx (tr_unit x) = Some n -> un_waveform (tr_unit x) = 0 -> ph_phase (un_phase (tr_unit x)) = 0 ->
  BKTrackSetAttr fuel x BK_WAVEFORM v = Ok r -> exists period, fst r = t_unit (BKTrackUpdateIgnoreVolume (t_waveform x v))
    (set_period (unit_data_state (set_waveform (set_ph (tr_unit x) (p_count (un_phase (tr_unit x)) cnt)) v) None) period).
Proof.
  intros EQ EC EW EP E.
  assert (K : BKUnitSetAttr (tr_unit x) BK_WAVEFORM v = Ok (unit_data_state (set_waveform (set_ph (tr_unit x) (p_count (un_phase (tr_unit x)) cnt)) v) None, 0)).
  { transitivity (match waveform_phases v with None => Ok (tr_unit x, BK_INVALID_VALUE) | Some count =>
      let u := set_ph (tr_unit x) (p_count (un_phase (tr_unit x)) count) in Ok (unit_data_state (if negb (un_waveform u =? v) then set_waveform (set_phase u 0) v else u) None, 0) end); [reflexivity|].
    rewrite EQ. cbv zeta. f_equal. f_equal. f_equal. destruct (tr_unit x) as [ct ti pe lp w du vo mu [ph wr wc co] sm su ju re]. cbn in EW, EP |- *. subst w ph.
    destruct (0 =? v) eqn:E0; cbn [negb]; [apply Z.eqb_eq in E0; subst v|]; reflexivity. }
  assert (QW : (v =? BK_SAMPLE) = false /\ (BKMin cnt BK_WAVE_MAX_LENGTH =? 0) = false /\ s32 v = v) by (destruct (table_cases _ _ EQ) as [(-> & ->)|[(-> & ->)|[(-> & ->)|[(-> & ->)|[(-> & ->)|(-> & ->)]]]]]; repeat split; reflexivity).
  destruct QW as (W1 & W2 & W3).
  set (U := unit_data_state _ None) in *. assert (UW : un_waveform U = v) by reflexivity. assert (UC : un_ctx U = Some n) by exact EC. assert (UN : ph_count (un_phase U) = cnt) by reflexivity. clearbody U.
  assert (E2 : (let* (u, ret) := BKUnitSetAttr (tr_unit x) BK_WAVEFORM v in let t := t_unit x u in
    if ret =? 0 then let t := t_waveform t (s32 (un_waveform u)) in let* t := BKTrackUpdateUnitNote (BKTrackUpdateIgnoreVolume t) in Ok (t, ret) else Ok (t, ret)) = Ok r) by exact E.
  rewrite K in E2. cbn [bind] in E2. cbv zeta in E2. change (0 =? 0) with true in E2. cbv iota in E2. rewrite UW, W3 in E2.
  set (y := BKTrackUpdateIgnoreVolume _) in E2. assert (YU : tr_unit y = U) by reflexivity. assert (YW : tr_waveform y = v) by reflexivity.
  assert (Y : forall u, t_unit y u = t_unit (BKTrackUpdateIgnoreVolume (t_waveform x v)) u) by reflexivity. clearbody y.
  unfold BKTrackUpdateUnitNote in E2. rewrite YU, UC, YW, W1, UN, W2 in E2. cbn [negb] in E2.
  destruct (track_note y) as [note|]; [|discriminate]. cbn [bind] in E2. destruct (BKTonePeriodLookup _ _) as [per|]; [|discriminate]. cbn [bind] in E2.
  unfold unit_attr in E2. rewrite YU in E2.
  change (BKUnitSetAttr U BK_PERIOD ?v) with (let* a := abs32 v in Ok (set_period U (BKMax a BK_MIN_PERIOD), 0)) in E2. destruct (abs32 _) as [pv|]; [|discriminate]. cbn [bind] in E2.
  exists (BKMax pv BK_MIN_PERIOD). rewrite <- Y. assert (r = (t_unit y (set_period U (BKMax pv BK_MIN_PERIOD)), 0)) as -> by congruence. reflexivity.
Qed.
Lemma restart_exact fuel master waveform t t' cnt n : un_duty (tr_unit t) = 4 -> un_sustain (tr_unit t) = false -> has t FInstr = false ->
  waveform_phases waveform = Some cnt -> un_ctx (tr_unit t) = Some n -> un_waveform (tr_unit t) = 0 -> ph_phase (un_phase (tr_unit t)) = 0 ->
  restart_track fuel master waveform 4 t = Ok t' -> exists s period,
    BKSlideStateSetValue (tr_volume t) BK_MAX_VOLUME = Ok s /\
    let x := BKTrackUpdateIgnoreVolume (t_waveform (put (t_master (put (t_volume t s) FVolume true) (BKClamp master 0 BK_MAX_VOLUME)) FVolume true) waveform) in
    t' = t_unit (put (t_note (t_curNote (put (t_duty x 4) FDuty true) (-1)) (BKSlideStateHalt (tr_note t) true)) FNote true)
      (set_mute (set_period (unit_data_state (set_waveform (set_ph (tr_unit t) (p_count (un_phase (tr_unit t)) cnt)) waveform) None) period) 1).
Proof.
  intros H1 H2 H3 HQ HC HW HP E. unfold restart_track in E.
  assert (EV : BKTrackSetAttr fuel t BK_VOLUME BK_MAX_VOLUME = let* s := BKSlideStateSetValue (tr_volume t) BK_MAX_VOLUME in Ok (put (t_volume t s) FVolume true, 0)).
  { transitivity (let* t := (let* s := BKSlideStateSetValue (tr_volume t) BK_MAX_VOLUME in Ok (put (t_volume t s) FVolume true)) in Ok (t, 0)); [reflexivity|]. destruct (BKSlideStateSetValue _ _); reflexivity. }
  rewrite EV in E. clear EV. destruct (BKSlideStateSetValue (tr_volume t) BK_MAX_VOLUME) as [s|]; [|discriminate]. cbn [bind] in E. exists s.
  change (BKTrackSetAttr fuel ?x BK_MASTER_VOLUME ?v) with (Ok (put (t_master x (BKClamp v 0 BK_MAX_VOLUME)) FVolume true, 0)) in E. cbn [bind] in E.
  set (y := put (t_master _ _) _ _) in *. assert (YU : tr_unit y = tr_unit t) by reflexivity. assert (YI : has y FInstr = false) by exact H3. assert (YN : tr_note y = tr_note t) by reflexivity.
  destruct (BKTrackSetAttr fuel y BK_WAVEFORM waveform) as [(z & r)|] eqn:EZ; [|discriminate]. cbn [bind] in E.
  destruct (wave_restart fuel y waveform cnt n (z, r) HQ) as (period & K); [rewrite YU; exact HC|rewrite YU; exact HW|rewrite YU; exact HP|exact EZ|]. cbn [fst] in K. subst z. clear EZ.
  rewrite YU in E. exists period. split; [reflexivity|]. cbv zeta. rewrite <- YN. clearbody y.
  rewrite rest_restart in E; [|exact H1|exact H2|exact YI].
  match type of E with Ok ?a = _ => assert (t' = a) as -> by congruence end. reflexivity.
Qed.

(** The track made by a reset, up to the period of its unit. *)
Lemma reset_exact fuel t n t' : un_ctx (tr_unit t) = Some n -> waveform_phases (un_waveform (tr_unit t)) <> None -> waveform_phases (tr_waveform t) <> None ->
  BKTrackReset fuel t = Ok t' -> exists s period cnt ign,
  BKSlideStateSetValue (BKSlideStateInit BK_MAX_VOLUME) BK_MAX_VOLUME = Ok s /\ waveform_phases (tr_waveform t) = Some cnt /\
  t' = t_unit (t_note (t_curNote (t_duty (t_waveform (t_master (t_volume
        (t_flags (fresh_track (fresh_unit n [] 0 0 None None 0 4 1 0) (tr_rate t) (tr_dataId t) (has t FPan) (has t FTri) ign)
          (mk_tflags false false (has t FPan) (has t FTri) ign true true true false false false false false)) s)
        (BKClamp (tr_master t) 0 BK_MAX_VOLUME)) (tr_waveform t)) 4) (-1)) (BKSlideStateHalt (BKSlideStateInit 0) true))
     (mk_unit (Some n) 0 period (repeat 0 (Z.to_nat BK_MAX_CHANNELS)) (tr_waveform t) 4 (un_volume (tr_unit t)) 1 (mk_phase 0 0 0 cnt)
        (mk_sample None (sm_numChannels (un_sample (tr_unit t))) (sm_length (un_sample (tr_unit t))) 0 0 0 0 0 0 0 BK_FINT20_UNIT (sm_callback (un_sample (tr_unit t))) (sm_frames (un_sample (tr_unit t)))) false false false).
Proof.
  intros EC EU EW E. destruct (reset_restart fuel t n EC EU) as (p1 & d1 & m1 & c1 & i1 & K & ->). rewrite K in E. clear K.
  destruct (waveform_phases (tr_waveform t)) as [cnt|] eqn:EQ; [|contradiction].
  match type of E with restart_track _ _ _ _ ?x = _ => destruct (restart_exact fuel _ _ x _ cnt n eq_refl eq_refl eq_refl EQ eq_refl eq_refl eq_refl E) as (s & period & ES & ->) end.
  exists s, period, cnt, ((tr_waveform t =? BK_TRIANGLE) && has t FTri). split; [exact ES|]. split; [reflexivity|]. reflexivity.
Qed.

Definition start_volume : slide := match BKSlideStateSetValue (BKSlideStateInit BK_MAX_VOLUME) BK_MAX_VOLUME with Ok s => s | Err _ => slide0 end.
Lemma start_volume_eq : BKSlideStateSetValue (BKSlideStateInit BK_MAX_VOLUME) BK_MAX_VOLUME = Ok start_volume.
Proof. vm_compute. reflexivity. Qed.

(** Every readable attribute of the track after a reset, but the period and the volumes of the channels. *)
Theorem reset_reads fuel t n t' : un_ctx (tr_unit t) = Some n -> waveform_phases (un_waveform (tr_unit t)) <> None -> waveform_phases (tr_waveform t) <> None ->
  0 <= tr_master t <= BK_MAX_VOLUME -> BKTrackReset fuel t = Ok t' ->
  (reads t' BK_MASTER_VOLUME (tr_master t) /\ reads t' BK_WAVEFORM (tr_waveform t) /\ reads t' BK_TRIANGLE_IGNORES_VOLUME (if has t FTri then 1 else 0)) /\
  (reads t' BK_VOLUME 32767 /\ reads t' BK_PANNING 0 /\ reads t' BK_NOTE (-1) /\ reads t' BK_MUTE 1 /\ reads t' BK_DUTY_CYCLE 4 /\
   reads t' BK_SAMPLE_PITCH 0 /\ reads t' BK_PHASE 0 /\ reads t' BK_PHASE_WRAP 0 /\ reads t' BK_SAMPLE_REPEAT 0 /\ reads t' BK_SAMPLE_PERIOD 1048576 /\
   reads t' BK_SAMPLE_IMMED_RELEASE 0 /\ reads t' BK_FLAG_RELEASE 0) /\
  (reads t' BK_ARPEGGIO_DIVIDER 4 /\ reads t' BK_EFFECT_DIVIDER 1 /\ reads t' BK_INSTRUMENT_DIVIDER 4) /\
  (reads t' BK_EFFECT_VOLUME_SLIDE 0 /\ reads t' BK_EFFECT_PANNING_SLIDE 0 /\ reads t' BK_EFFECT_PORTAMENTO 0) /\
  (BKTrackGetPtr t' BK_EFFECT_TREMOLO 12 = (0, [0; 0; 0]) /\ BKTrackGetPtr t' BK_EFFECT_VIBRATO 12 = (0, [0; 0; 0]) /\
   BKTrackGetPtr t' BK_INSTRUMENT 8 = (0, [0]) /\ BKTrackGetPtr t' BK_ARPEGGIO 36 = (0, [0])).
Proof.
  intros EC EU EW EM E. destruct (reset_exact fuel t n t' EC EU EW E) as (s & period & cnt & ign & ES & EQ & ->). clear E EC EU EW.
  rewrite start_volume_eq in ES. assert (s = start_volume) as -> by congruence. clear ES.
  assert (W : s32 (tr_waveform t) = tr_waveform t) by (destruct (table_cases _ _ EQ) as [(-> & ->)|[(-> & ->)|[(-> & ->)|[(-> & ->)|[(-> & ->)|(-> & ->)]]]]]; reflexivity).
  assert (M : BKClamp (tr_master t) 0 BK_MAX_VOLUME = tr_master t) by (unfold BKClamp, BK_MAX_VOLUME in *; replace (tr_master t <? 0) with false by lia; replace (tr_master t >? 32767) with false by lia; reflexivity).
  split; [split; [|split]|].
  - unfold reads. rewrite M. reflexivity.
  - unfold reads. transitivity (@Ok (Z * option Z) (0, Some (s32 (tr_waveform t)))); [reflexivity|]. rewrite W. reflexivity.
  - reflexivity.
  - repeat (split || (vm_compute; reflexivity)).
Qed.
