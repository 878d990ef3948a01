(** What a reset leaves of a track, and what is played after it. *)
From Verif Require Import CInt CIntFacts TimeModel Kernels BufferModel DataModel UnitModel InterpModel ToneModel SequenceModel TrackModel ContextModel ResetSame TrackSame ReplaySame.
Ltac Zify.zify_post_hook ::= idtac.

(** The settings of a track a reset keeps.  The last line is what an earlier sample leaves in
    the unit; nothing of it when no sample has been used. *)
Record track_settings (t t' : track) : Prop := {
  ts_context : un_ctx (tr_unit t) = un_ctx (tr_unit t') /\ un_ctx (tr_unit t) <> None;
  ts_pan : has t FPan = has t' FPan /\ (has t FPan = true -> un_ctx (tr_unit t) = Some 2);
  ts_rate : tr_rate t = tr_rate t';
  ts_master : tr_master t = tr_master t';
  ts_triangle : has t FTri = has t' FTri;
  ts_waveform : tr_waveform t = tr_waveform t' /\ waveform_phases (tr_waveform t) <> None;
  ts_unit : waveform_phases (un_waveform (tr_unit t)) <> None /\ waveform_phases (un_waveform (tr_unit t')) <> None;
  ts_channels : length (un_volume (tr_unit t)) = length (un_volume (tr_unit t'));
  ts_callback : sm_callback (un_sample (tr_unit t)) = sm_callback (un_sample (tr_unit t'));
  ts_sample : tr_dataId t = tr_dataId t' /\ sm_numChannels (un_sample (tr_unit t)) = sm_numChannels (un_sample (tr_unit t')) /\
    sm_length (un_sample (tr_unit t)) = sm_length (un_sample (tr_unit t')) /\ sm_frames (un_sample (tr_unit t)) = sm_frames (un_sample (tr_unit t'))
}.

(** What a reset makes of the unit. *)
Definition fresh_unit (n : Z) (vol : list Z) (nc len : Z) (cb : option Z) (fr : option (list Z * Z)) (period duty mute count : Z) : bkunit :=
  mk_unit (Some n) 0 period (repeat 0 (Z.to_nat BK_MAX_CHANNELS)) 0 duty vol mute (mk_phase 0 0 0 count)
    (mk_sample None nc len 0 0 0 0 0 0 0 BK_FINT20_UNIT cb fr) false false false.

Lemma not_table w : waveform_phases w <> None -> (w =? BK_CUSTOM) = false /\ (w =? BK_SAMPLE) = false.
Proof.
  intros H. split; apply Z.eqb_neq; intros ->; apply H; reflexivity.
Qed.
Lemma clear_table u n : un_ctx u = Some n -> waveform_phases (un_waveform u) <> None ->
  BKUnitClear u = Ok (mk_unit (Some n) (un_time u) (un_period u) (un_lastPulse u) (un_waveform u) (un_duty u) (un_volume u) (un_mute u)
    (mk_phase (ph_phase (un_phase u)) 0 0 (ph_count (un_phase u)))
    (mk_sample None (sm_numChannels (un_sample u)) (sm_length (un_sample u)) 0 0 0 0 0 0 0 BK_FINT20_UNIT (sm_callback (un_sample u)) (sm_frames (un_sample u))) false false false).
Proof.
  destruct u as [ct ti pe lp w du vo mu ph sm su ju re]. cbn [un_ctx un_waveform]. intros -> H. destruct (not_table w H) as (E1 & E2).
  unfold BKUnitClear, BKUnitSetData, BKUnitTrySetData. cbn [un_ctx un_waveform]. change (BK_WAVEFORM =? BK_WAVEFORM) with true. change (BK_SAMPLE =? BK_WAVEFORM) with false. change (BK_SAMPLE =? BK_SAMPLE) with true. cbv iota.
  rewrite E1. cbn [bind]. change (0 =? 0) with true. cbv iota. cbn [bind unit_data_state set_sm un_ctx un_waveform un_sample s_data]. rewrite E2. cbn [bind]. change (0 =? 0) with true. cbv iota. cbn [bind]. reflexivity.
Qed.

(** The rest of [BKTrackClear]. *)
Definition restart_track (fuel : nat) (master waveform duty : Z) (t : track) : res track :=
  let* (t, _) := BKTrackSetAttr fuel t BK_VOLUME BK_MAX_VOLUME in
  let* (t, _) := BKTrackSetAttr fuel t BK_MASTER_VOLUME master in
  let* (t, _) := BKTrackSetAttr fuel t BK_WAVEFORM waveform in
  let* (t, _) := BKTrackSetAttr fuel t BK_DUTY_CYCLE duty in
  let* (t, _) := BKTrackSetAttr fuel t BK_NOTE BK_NOTE_MUTE in
  let* (t, _) := BKTrackSetAttr fuel t BK_MUTE 1 in
  Ok t.
Definition fresh_track (u : bkunit) (rate id : Z) (pan tri ign : bool) : track :=
  mk_track u rate id (mk_tflags false false pan tri ign false false false false false false false false)
    (mk_dstate BK_DEFAULT_ARPEGGIO_DIVIDER 0) (mk_dstate BK_DEFAULT_INSTR_DIVIDER 0) (mk_dstate BK_DEFAULT_EFFECT_DIVIDER 0)
    0 0 0 0 (BKSlideStateInit BK_MAX_VOLUME) (BKSlideStateInit BK_MAX_VOLUME) 0 (BKSlideStateInit 0) 0
    (BKIntervalStateInit BK_MAX_VOLUME) (BKSlideStateInit BK_MAX_VOLUME) (BKSlideStateInit BK_TRACK_EFFECT_MAX_STEPS)
    (BKIntervalStateInit 0) (BKSlideStateInit 0) (BKSlideStateInit BK_TRACK_EFFECT_MAX_STEPS)
    (mk_arp 0 0 0 (repeat 0 (Z.to_nat BK_MAX_ARPEGGIO)))
    None (mk_istate 0 0 (repeat sstate_zero BK_MAX_SEQUENCES) 0).

(** [BKTrackSetInstrument] with no instrument only mutes the unit. *)
Lemma no_instrument fuel t : un_sustain (tr_unit t) = false -> exists t2 mute, BKTrackSetInstrument fuel t None = Ok t2 /\
  tr_unit t2 = set_mute (tr_unit t) mute /\ tr_rate t2 = tr_rate t /\ tr_dataId t2 = tr_dataId t /\ has t2 FPan = has t FPan /\ has t2 FTri = has t FTri.
Proof.
  intros H. unfold BKTrackSetInstrument.
  assert (EU : forall u : bkunit, u = set_mute u (un_mute u)) by (intros []; reflexivity).
  destruct (negb _).
  - cbn [state_set_instrument bind]. cbv zeta. destruct (_ =? -1).
    + change (BKTrackSetNote fuel (put (t_instr t None) FInstr false) BK_NOTE_MUTE) with (set_note_mute (track_set_phase fuel) (put (t_instr t None) FInstr false)).
      unfold set_note_mute. cbv zeta. change (has (t_note (t_curNote (put (t_instr t None) FInstr false) (-1)) _) FInstr) with false. cbv iota. cbn [bind]. unfold unit_attr.
      cbn [tr_unit t_note t_curNote put t_flags t_instr]. change (BKUnitSetAttr (tr_unit t) BK_MUTE 1) with (Ok (set_mute (tr_unit t) 1, 0)). cbn [bind tr_unit t_unit].
      assert (ER : BKUnitSetAttr (set_mute (tr_unit t) 1) BK_FLAG_RELEASE 0 = Ok (set_mute (tr_unit t) 1, 0)).
      { transitivity (if un_sustain (tr_unit t) then Ok (set_flags (set_mute (tr_unit t) 1) (un_sustain (tr_unit t)) (un_jump (tr_unit t)) false, 0) else Ok (set_mute (tr_unit t) 1, 0)); [reflexivity|]. rewrite H. reflexivity. }
      rewrite ER. cbn [bind]. eexists _, 1. split; [reflexivity|]. repeat split; reflexivity.
    + cbn [bind]. eexists _, (un_mute (tr_unit t)). split; [reflexivity|]. split; [apply EU|]. repeat split; reflexivity.
  - cbn [bind]. eexists _, (un_mute (tr_unit t)). split; [reflexivity|]. split; [apply EU|]. repeat split; reflexivity.
Qed.

Lemma reset_restart fuel t n : un_ctx (tr_unit t) = Some n -> waveform_phases (un_waveform (tr_unit t)) <> None -> exists period duty mute count ign,
  BKTrackReset fuel t = restart_track fuel (tr_master t) (tr_waveform t) 4
    (fresh_track (fresh_unit n (un_volume (tr_unit t)) (sm_numChannels (un_sample (tr_unit t))) (sm_length (un_sample (tr_unit t))) (sm_callback (un_sample (tr_unit t))) (sm_frames (un_sample (tr_unit t))) period duty mute count)
       (tr_rate t) (tr_dataId t) (has t FPan) (has t FTri) ign) /\ duty = 4.
Proof.
  intros EC EW. unfold BKTrackReset, BKUnitReset. rewrite (clear_table _ n EC EW). cbn [bind].
  change (BKTrackSetAttr fuel ?x BK_DUTY_CYCLE ?v) with (let* (u, ret) := BKUnitSetAttr (tr_unit x) BK_DUTY_CYCLE v in let t := t_unit x u in let t := if ret =? 0 then t_duty t (s32 (un_duty u)) else t in Ok (put t FDuty true, ret)).
  cbn [tr_unit t_unit].
  set (u1 := set_lastPulse _ _).
  assert (ED : BKUnitSetAttr u1 BK_DUTY_CYCLE (Z.quot BK_SQUARE_PHASES 4) = Ok (set_duty u1 4, 0)).
  { transitivity (if negb (un_duty u1 =? 4) then Ok (set_duty (if (un_waveform u1 =? BK_SQUARE) && (4 >? un_duty u1) && (ph_phase (un_phase u1) <? 4) then set_phase u1 0 else u1) 4, 0) else Ok (u1, 0)); [reflexivity|].
    change (un_waveform u1 =? BK_SQUARE) with false. cbn [andb]. destruct (un_duty u1 =? 4) eqn:E; cbn [negb]; [|reflexivity]. apply Z.eqb_eq in E. rewrite <- E at 1. destruct u1. reflexivity. }
  rewrite ED. cbn [bind]. cbv zeta. change (0 =? 0) with true. cbv iota. cbn [bind].
  unfold BKTrackClear. cbn [put t_flags t_duty t_unit tr_waveform tr_duty tr_master tr_unit]. cbv zeta.
  rewrite (clear_table _ n); [|reflexivity|discriminate]. cbn [bind].
  match goal with |- context [BKTrackSetInstrument fuel ?x None] => destruct (no_instrument fuel x eq_refl) as (t2 & mute & -> & E1 & E2 & E3 & E4 & E5) end. cbn [bind].
  exists (un_period (tr_unit t)), 4, mute, (ph_count (un_phase (tr_unit t))), (tf_ignore (tr_flags t2)). split; [|reflexivity]. unfold cleared. rewrite E1, E2, E3.
  change (tf_pan (tr_flags t2)) with (has t2 FPan). change (tf_tri (tr_flags t2)) with (has t2 FTri). rewrite E4, E5. reflexivity.
Qed.

Lemma table_cases w cnt : waveform_phases w = Some cnt ->
  w = 0 /\ cnt = 16 \/ w = BK_SQUARE /\ cnt = 16 \/ w = BK_TRIANGLE /\ cnt = 32 \/ w = BK_NOISE /\ cnt = 8 \/ w = BK_SAWTOOTH /\ cnt = 7 \/ w = BK_SINE /\ cnt = 32.
Proof.
  unfold waveform_phases. destruct (w =? 0) eqn:E0; [|destruct (w =? BK_SQUARE) eqn:E1; [|destruct (w =? BK_TRIANGLE) eqn:E2; [|destruct (w =? BK_NOISE) eqn:E3; [|destruct (w =? BK_SAWTOOTH) eqn:E4; [|destruct (w =? BK_SINE) eqn:E5; [|discriminate]]]]]];
    intros E; injection E as <-;
    repeat match goal with K : (_ =? _) = true |- _ => apply Z.eqb_eq in K; subst w end.
  - left. split; reflexivity.
  - right. left. split; reflexivity.
  - right. right. left. split; reflexivity.
  - right. right. right. left. split; reflexivity.
  - right. right. right. right. left. split; reflexivity.
  - right. right. right. right. right. split; reflexivity.
Qed.
(** What is left of the period, the muting, the number of phases and a flag is replaced. *)
Lemma restart_blind fuel master waveform n vol nc len cb fr rate id pan tri p1 m1 c1 i1 p2 m2 c2 i2 : waveform_phases waveform <> None ->
  restart_track fuel master waveform 4 (fresh_track (fresh_unit n vol nc len cb fr p1 4 m1 c1) rate id pan tri i1) =
  restart_track fuel master waveform 4 (fresh_track (fresh_unit n vol nc len cb fr p2 4 m2 c2) rate id pan tri i2).
Proof.
  intros H. unfold restart_track.
  change (BKTrackSetAttr fuel ?x BK_VOLUME ?v) with (let* t := BKTrackSetVolume x v in Ok (t, 0)). unfold BKTrackSetVolume. cbn [tr_volume fresh_track].
  destruct (BKSlideStateSetValue _ _) as [s|]; [|reflexivity]. cbn [bind].
  change (BKTrackSetAttr fuel ?x BK_MASTER_VOLUME ?v) with (Ok (put (t_master x (BKClamp v 0 BK_MAX_VOLUME)) FVolume true, 0)). cbn [bind].
  change (BKTrackSetAttr fuel ?x BK_WAVEFORM ?v) with (let* (u, ret) := BKUnitSetAttr (tr_unit x) BK_WAVEFORM v in let t := t_unit x u in
    if ret =? 0 then let t := t_waveform t (s32 (un_waveform u)) in let* t := BKTrackUpdateUnitNote (BKTrackUpdateIgnoreVolume t) in Ok (t, ret) else Ok (t, ret)).
  change (BKUnitSetAttr ?u BK_WAVEFORM ?v) with (match waveform_phases v with None => Ok (u, BK_INVALID_VALUE) | Some count =>
      Ok (unit_data_state (if negb (un_waveform (set_ph u (p_count (un_phase u) count)) =? v) then set_waveform (set_phase (set_ph u (p_count (un_phase u) count)) 0) v else set_ph u (p_count (un_phase u) count)) None, 0) end).
  destruct (waveform_phases waveform) as [cnt|] eqn:EQ; [|contradiction]. cbn [bind]. cbv zeta. change (0 =? 0) with true. cbv iota.
  assert (K : forall p m w, (if negb (un_waveform (set_ph (fresh_unit n vol nc len cb fr p 4 m w) (p_count (un_phase (fresh_unit n vol nc len cb fr p 4 m w)) cnt)) =? waveform)
     then set_waveform (set_phase (set_ph (fresh_unit n vol nc len cb fr p 4 m w) (p_count (un_phase (fresh_unit n vol nc len cb fr p 4 m w)) cnt)) 0) waveform
     else set_ph (fresh_unit n vol nc len cb fr p 4 m w) (p_count (un_phase (fresh_unit n vol nc len cb fr p 4 m w)) cnt)) = set_waveform (fresh_unit n vol nc len cb fr p 4 m cnt) waveform).
  { intros p m w. cbn [un_waveform set_ph fresh_unit]. destruct (0 =? waveform) eqn:E; cbn [negb]; [apply Z.eqb_eq in E; rewrite <- E|]; reflexivity. }
  cbn [tr_unit put t_flags t_master t_volume fresh_track]. rewrite !K. clear K.
  unfold BKTrackUpdateUnitNote. cbn [tr_unit BKTrackUpdateIgnoreVolume put t_flags t_waveform t_unit un_ctx unit_data_state set_sm set_waveform fresh_unit].
  match goal with |- bind (bind (bind (track_note ?x) _) _) _ = bind (bind (bind (track_note ?y) _) _) _ => change (track_note y) with (track_note x); destruct (track_note x) as [note|]; [|reflexivity] end.
  cbn [bind].
  assert (EW : (s32 waveform =? BK_SAMPLE) = false /\ (cnt =? 0) = false /\ (BKMin cnt BK_WAVE_MAX_LENGTH =? 0) = false) by (destruct (table_cases _ _ EQ) as [(-> & ->)|[(-> & ->)|[(-> & ->)|[(-> & ->)|[(-> & ->)|(-> & ->)]]]]]; repeat split; reflexivity).
  destruct EW as (EW1 & EW2 & EW3).
  repeat match goal with |- context [tr_waveform ?x] => change (tr_waveform x) with (s32 waveform) | |- context [tr_rate ?x] => change (tr_rate x) with rate | |- context [ph_count (un_phase ?x)] => change (ph_count (un_phase x)) with cnt end.
  rewrite EW1. cbn [negb]. destruct (BKTonePeriodLookup note rate) as [per|]; [|reflexivity]. cbn [bind]. rewrite EW3.
  unfold unit_attr.
  change (BKUnitSetAttr ?u BK_PERIOD ?v) with (let* a := abs32 v in Ok (set_period u (BKMax a BK_MIN_PERIOD), 0)). destruct (abs32 _) as [pv|]; [|reflexivity]. cbn [bind].
  reflexivity.
Qed.
Lemma restart_near fuel master waveform duty t t' C pan V V' : T C pan false V V' t t' -> length V = length V' -> (pan = true -> C = Some 2) ->
  rrel Near (restart_track fuel master waveform duty t) (restart_track fuel master waveform duty t').
Proof.
  intros H E P. unfold restart_track. eapply rrel_bind; [exact (T_volume_set _ _ _ _ _ fuel _ _ _ H)|]. clear H.
  assert (G : forall y y' attr v, T C pan true V V' y y' -> (BK_VOLUME_0 <=? attr) && (attr <=? BK_VOLUME_7) = false -> rrel (TR C pan true V V') (BKTrackSetAttr fuel y attr v) (BKTrackSetAttr fuel y' attr v)) by (intros; apply T_set_attr; assumption).
  intros (x & r) (x' & r') (X & _). cbn [fst] in X.
  do 5 (eapply rrel_bind; [apply G; [exact X|reflexivity]|]; clear x x' r r' X; intros (x & r) (x' & r') (X & _); cbn [fst] in X).
  cbn [rrel]. exists C, pan, true, V, V'. repeat (split; [assumption|]). intros n _. left. reflexivity.
Qed.
Lemma reset_near fuel t t' : track_settings t t' -> rrel Near (BKTrackReset fuel t) (BKTrackReset fuel t').
Proof.
  intros [(C1 & C2) (P1 & P2) R M Tr (W1 & W2) (U1 & U2) L K (I & S1 & S2 & S3)]. destruct (un_ctx (tr_unit t)) as [n|] eqn:EC; [|contradiction].
  destruct (reset_restart fuel t n EC U1) as (p1 & d1 & m1 & c1 & i1 & -> & ->). destruct (reset_restart fuel t' n (eq_sym C1) U2) as (p2 & d2 & m2 & c2 & i2 & -> & ->).
  rewrite <- R, <- M, <- Tr, <- W1, <- K, <- I, <- S1, <- S2, <- S3, <- P1.
  rewrite (restart_blind fuel _ _ n (un_volume (tr_unit t')) _ _ _ _ _ _ _ _ p2 m2 c2 i2 p1 m1 c1 i1 W2).
  eapply (restart_near fuel _ _ _ _ _ (Some n) (has t FPan) (un_volume (tr_unit t)) (un_volume (tr_unit t'))); [|exact L|exact P2].
  split; [split; [reflexivity|split; reflexivity]|split; [reflexivity|split; [reflexivity|discriminate]]].
Qed.

(** The settings of a context a reset keeps. *)
Record context_settings (c c' : context) : Prop := {
  se_rate : cx_rate c = cx_rate c';
  se_period : cx_period c = cx_period c';
  se_clocks : map (fun k => (k_id k, k_period k)) (cx_clocks c) = map (fun k => (k_id k, k_period k)) (cx_clocks c');
  se_kernels : map b_pulse (cx_channels c) = map b_pulse (cx_channels c');
  se_tracks : Forall2 (fun p p' => fst p = fst p' /\ track_settings (snd p) (snd p')) (cx_tracks c) (cx_tracks c')
}.
Lemma context_reset_same fuel c c' : context_settings c c' -> rrel SameC (BKContextReset fuel c) (BKContextReset fuel c').
Proof.
  intros [R P K B Ts]. unfold BKContextReset. apply (rrel_bind Sames).
  - induction Ts as [|(i & t) (i' & t') ts ts' (E & H) Hs IH]; cbn [reset_tracks fst snd] in *; [constructor|]. subst i'.
    eapply rrel_bind; [apply reset_near; exact H|]. intros a a' Ha. eapply rrel_bind; [exact IH|]. intros b b' Hb. constructor; [split; [reflexivity|right; exact Ha]|exact Hb].
  - intros a a' Ha. cbn [rrel]. rewrite R, P.
    assert (EK : map (fun k => mk_vclock (k_id k) (k_period k) 0 0 0) (cx_clocks c) = map (fun k => mk_vclock (k_id k) (k_period k) 0 0 0) (cx_clocks c')).
    { rewrite <- !(map_map (fun k => (k_id k, k_period k)) (fun p => mk_vclock (fst p) (snd p) 0 0 0)). rewrite K. reflexivity. }
    assert (EB : map BKBufferClear (cx_channels c) = map BKBufferClear (cx_channels c')).
    { transitivity (map (fun k => BKBufferClear (mk_buffer 0 0 0 [] k)) (map b_pulse (cx_channels c))); [rewrite map_map; reflexivity|]. rewrite B, map_map. reflexivity. }
    rewrite EK, EB. apply SameC_mk. exact Ha.
Qed.

(** What is heard: the frames each call returns. *)
Definition audio (r : res (context * list (list (list Z)))) : res (list (list (list Z))) := let* (_, l) := r in Ok l.
Theorem reset_audio m n e fuel c1 c2 c1' ops : context_settings c1 c2 -> BKContextReset fuel c1 = Ok c1' ->
  exists c2', BKContextReset fuel c2 = Ok c2' /\ audio (xruns m n e fuel c2' ops) = audio (xruns m n e fuel c1' ops).
Proof.
  intros H E. pose proof (context_reset_same fuel _ _ H) as K. rewrite E in K. destruct (BKContextReset fuel c2) as [c2'|]; [|contradiction]. exists c2'. split; [reflexivity|].
  cbn [rrel] in K. pose proof (same_runs m n e fuel ops _ _ K) as Q. destruct (xruns m n e fuel c1' ops) as [(a & l)|], (xruns m n e fuel c2' ops) as [(a' & l')|]; cbn [rrel] in Q; try contradiction; cbn [audio bind].
  - destruct Q as (_ & Q). cbn [snd] in Q. rewrite Q. reflexivity.
  - rewrite Q. reflexivity.
Qed.
Theorem replay m n e fuel c c1 c2 ops l : BKContextReset fuel c = Ok c1 -> xruns m n e fuel c1 ops = Ok (c2, l) -> context_settings c c2 ->
  exists c3 c4, BKContextReset fuel c2 = Ok c3 /\ xruns m n e fuel c3 ops = Ok (c4, l).
Proof.
  intros E1 E2 H. destruct (reset_audio m n e fuel _ _ _ ops H E1) as (c3 & E3 & A). rewrite E2 in A. cbn [audio bind] in A.
  destruct (xruns m n e fuel c3 ops) as [(c4 & l4)|] eqn:E4; cbn [audio bind] in A; [|discriminate]. exists c3, c4. split; [exact E3|]. congruence.
Qed.
