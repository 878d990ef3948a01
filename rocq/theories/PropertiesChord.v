(** Property of tracks which hold a note: C113, for tracks whose attributes are set before they
    are attached. *)
From Verif Require Import CInt CIntFacts TimeModel DataModel UnitModel UnitSpec UnitProofs2 InterpModel ToneModel PropertiesTone TrackModel TrackSpec TrackQuiet MixSpec PropertiesPeriod ContextModel ContextSpec ContextSame SafeSpec BufferSpec PropertiesSafe PlainModel PlainProofs PropertiesPlain HeldProofs PropertiesHeld.
Ltac Zify.zify_post_hook ::= idtac.

(** ** A note *)

(** Waveforms with a pitch, and the phases of a period. *)
Definition tones : list Z := [BK_SQUARE; BK_TRIANGLE; BK_SAWTOOTH; BK_SINE].
Definition phases (w : Z) : Z := match waveform_phases w with Some n => n | None => 0 end.
(** The calls of a client: duty cycle, master volume, volume, panning and note. *)
Definition note_calls (d mv v p n : Z) : list top :=
  [OAttr BK_DUTY_CYCLE d; OAttr BK_MASTER_VOLUME mv; OAttr BK_VOLUME v; OAttr BK_PANNING p; OAttr BK_NOTE n].
(** The volumes of the channels: a fraction in units of 1/32768; the volume of a triangle wave is
    ignored by default; panning reduces the volume of one of two channels. *)
Definition fraction (v f : Z) : Z := v * f / 32768.
Definition note_level (w mv v : Z) : Z := fraction (if (w =? BK_TRIANGLE) && negb (v =? 0) then 32767 else v) mv.
Definition note_volumes (nch level p : Z) : list Z :=
  if (nch =? 2) && negb (p =? 0) then (if p >? 0 then fraction level (32767 - p) else level) :: (if p <? 0 then fraction level (32767 + p) else level) :: repeat 0 6
  else repeat level 8.

(** The period of the note (C10, C11). *)
Definition tone_period (n rate : Z) : Z := match BKTonePeriodLookup n rate with Ok p => p | Err _ => 0 end.

(** A track with these attributes, and the unit which plays it. *)
Record tone_part := mk_part { pt_id : Z; pt_wave : Z; pt_duty : Z; pt_master : Z; pt_volume : Z; pt_panning : Z; pt_note : Z }.
Definition part_good (x : tone_part) : Prop := In (pt_wave x) tones /\ 1 <= pt_duty x <= 15 /\ 0 <= pt_master x <= 32767 /\ 0 <= pt_volume x <= 32767 /\
  -32767 <= pt_panning x <= 32767 /\ 0 <= pt_note x <= 100663296.
Definition part_calls (x : tone_part) : list top := note_calls (pt_duty x) (pt_master x) (pt_volume x) (pt_panning x) (pt_note x).
Definition part_track (fuel : nat) (x : tone_part) (t : track) : Prop := exists t0 ls, BKTrackInit fuel (pt_wave x) = Ok t0 /\ truns fuel t0 (part_calls x) = Ok (t, ls).
Definition no_sample : usample := mk_sample None 0 0 0 0 0 0 0 0 0 1048576 None None.
Definition part_unit (nch rate : Z) (x : tone_part) : bkunit :=
  mk_unit (Some nch) 0 (tone_period (pt_note x) rate / phases (pt_wave x)) (repeat 0 8) (pt_wave x) (pt_duty x)
    (note_volumes nch (note_level (pt_wave x) (pt_master x) (pt_volume x)) (pt_panning x)) 0 (mk_phase 0 0 0 (phases (pt_wave x))) no_sample false false false.

(** ** Proofs *)

Definition slot (shift v : Z) : slide := mk_slide (v * 2 ^ shift) 0 (v * 2 ^ shift) 0 0 shift 0.
Definition empty (shift : Z) (s : slide) : Prop := sl_steps s = 0 /\ sl_roundBias s = 0 /\ sl_valueShift s = shift.

Lemma slide_slot shift s v : empty shift s -> -2147483648 <= v * 2 ^ shift <= 2147483647 -> BKSlideStateSetValue s v = Ok (slot shift v).
Proof.
  intros (E1 & E2 & E3) B. unfold BKSlideStateSetValue, BKSlideStateSetValueAndSteps. rewrite E1, E2, E3. cbn [BKClamp].
  change (BKClamp 0 0 BK_STATE_MAX_STEPS) with 0. cbn [Z.eqb negb]. rewrite chk32_ok by lia. reflexivity.
Qed.
Lemma slot_value shift v : 0 <= shift -> -2147483648 <= v * 2 ^ shift <= 2147483647 -> BKSlideStateGetValue (slot shift v) = Ok v.
Proof.
  intros S B. unfold BKSlideStateGetValue. cbn [slot sl_value sl_roundBias sl_valueShift]. rewrite Z.add_0_r, chk32_ok by lia. cbn [bind]. f_equal.
  rewrite Z.shiftr_div_pow2, Z.div_mul by lia. reflexivity.
Qed.

Record begun (w : Z) (t : track) : Prop := {
  bg_wave : tr_waveform t = w; bg_wave' : un_waveform (tr_unit t) = w; bg_duty : un_duty (tr_unit t) = tr_duty t /\ 1 <= tr_duty t <= 15;
  bg_phase : un_phase (tr_unit t) = mk_phase 0 0 0 (phases w);
  bg_time : un_lastPulse (tr_unit t) = repeat 0 8 /\ un_volume (tr_unit t) = repeat 0 8;
  bg_ctx : un_ctx (tr_unit t) = None; bg_sustain : un_sustain (tr_unit t) = false /\ un_jump (tr_unit t) = false /\ un_release (tr_unit t) = false /\ un_sample (tr_unit t) = no_sample; bg_pitch : tr_pitch t = 0; bg_cur : tr_curNote t = -1;
  bg_plain : plainly t /\ has t FPan = false /\ has t FTremolo = false /\ has t FVibrato = false /\ has t FDuty = true; bg_ignore : has t FIgnore = (w =? BK_TRIANGLE);
  bg_note : empty 0 (tr_note t) }.

Lemma init_begun fuel w t : In w tones -> BKTrackInit fuel w = Ok t -> begun w t /\ empty 15 (tr_volume t) /\ empty 15 (tr_panning t).
Proof.
  intros I E. assert (K : t = match BKTrackInit fuel w with Ok x => x | Err _ => t end) by (rewrite E; reflexivity). clear E. revert K.
  destruct I as [<-|[<-|[<-|[<-|[]]]]]; vm_compute; intros ->; split;
    (split; vm_compute; repeat split; congruence) || (vm_compute; repeat split; congruence).
Qed.

Definition settings (t : track) (d mv v p n : Z) : track :=
  let t := put (t_duty (t_unit t (set_duty (tr_unit t) d)) d) FDuty true in
  let t := put (t_master t mv) FVolume true in
  let t := put (t_volume t (slot 15 v)) FVolume true in
  let t := put (t_panning t (slot 15 p)) FVolume true in
  let t := t_note t (slot 0 n) in
  let a := tr_arpeggio t in
  let t := t_curNote (t_arpeggio t (mk_arp 0 (ar_delta a) (ar_count a) (ar_notes a))) n in
  put (t_unit t (set_mute (tr_unit t) 0)) FNote true.

Lemma clamp_in v lo hi : lo <= v <= hi -> BKClamp v lo hi = v.
Proof. unfold BKClamp. intros H. destruct (Z.ltb_spec v lo); [lia|]. destruct (Z.gtb_spec v hi); lia. Qed.

Lemma call_master fuel t v : 0 <= v <= 32767 -> BKTrackSetAttr fuel t BK_MASTER_VOLUME v = Ok (put (t_master t v) FVolume true, 0).
Proof. intros B. unfold BKTrackSetAttr. cbn [Z.eqb Pos.eqb BK_MASTER_VOLUME]. rewrite clamp_in by (unfold BK_MAX_VOLUME; lia). reflexivity. Qed.
Lemma call_volume fuel t v : empty 15 (tr_volume t) -> 0 <= v <= 32767 -> BKTrackSetAttr fuel t BK_VOLUME v = Ok (put (t_volume t (slot 15 v)) FVolume true, 0).
Proof. intros H B. change (BKTrackSetAttr fuel t BK_VOLUME v) with (let* x := BKTrackSetVolume t v in Ok (x, 0)). unfold BKTrackSetVolume. rewrite clamp_in by (unfold BK_MAX_VOLUME; lia). rewrite (slide_slot 15) by (exact H || lia). reflexivity. Qed.
Lemma call_panning fuel t v : empty 15 (tr_panning t) -> -32767 <= v <= 32767 -> BKTrackSetAttr fuel t BK_PANNING v = Ok (put (t_panning t (slot 15 v)) FVolume true, 0).
Proof. intros H B. change (BKTrackSetAttr fuel t BK_PANNING v) with (let* x := BKTrackSetPanning t v in Ok (x, 0)). unfold BKTrackSetPanning. rewrite clamp_in by (unfold BK_MAX_VOLUME; lia). rewrite (slide_slot 15) by (exact H || lia). reflexivity. Qed.
Definition sound (t : track) (n : Z) : track :=
  let t := t_note t (slot 0 n) in
  let a := tr_arpeggio t in
  let t := t_curNote (t_arpeggio t (mk_arp 0 (ar_delta a) (ar_count a) (ar_notes a))) n in
  put (t_unit t (set_mute (tr_unit t) 0)) FNote true.
Lemma call_note fuel t n : empty 0 (tr_note t) -> tr_curNote t = -1 -> has t FInstr = false -> (tr_waveform t =? BK_SAMPLE) = false -> un_sustain (tr_unit t) = false ->
  0 <= n <= 100663296 -> BKTrackSetAttr fuel t BK_NOTE n = Ok (sound t n, 0).
Proof.
  intros H C I W S B. change (BKTrackSetAttr fuel t BK_NOTE n) with (let* x := BKTrackSetNote fuel t n in Ok (x, 0)). unfold BKTrackSetNote.
  destruct (Z.geb_spec n 0) as [_|]; [|lia]. rewrite clamp_in by (unfold BK_MIN_NOTE, BK_MAX_NOTE, BK_FINT20_SHIFT; lia). rewrite (slide_slot 0) by (exact H || lia). cbn [bind].
  change (tr_curNote (t_note t (slot 0 n))) with (tr_curNote t). rewrite C. cbn [Z.eqb Pos.eqb].
  change (has (t_note _ _) FInstr) with (has t FInstr). rewrite I. cbn [bind].
  change (tr_waveform (t_arpeggio _ _)) with (tr_waveform t). rewrite W. cbn [andb bind].
  unfold unit_attr. cbv zeta.
  match goal with |- context[BKUnitSetAttr ?u BK_MUTE 0] => change (BKUnitSetAttr u BK_MUTE 0) with (Ok (set_mute (tr_unit t) 0, 0)) end. cbn [bind].
  match goal with |- context[BKUnitSetAttr ?u BK_FLAG_RELEASE 0] => assert (R : BKUnitSetAttr u BK_FLAG_RELEASE 0 = Ok (set_mute (tr_unit t) 0, 0)) end.
  { cbn [t_unit tr_unit]. unfold BKUnitSetAttr. cbn [set_mute un_sustain]. rewrite S. reflexivity. }
  rewrite R. reflexivity.
Qed.

Lemma call_duty fuel t d : ph_phase (un_phase (tr_unit t)) = 0 -> 1 <= d <= 15 -> BKTrackSetAttr fuel t BK_DUTY_CYCLE d = Ok (put (t_duty (t_unit t (set_duty (tr_unit t) d)) d) FDuty true, 0).
Proof.
  intros P B. assert (E : BKUnitSetAttr (tr_unit t) BK_DUTY_CYCLE d = Ok (set_duty (tr_unit t) d, 0)).
  { unfold BKUnitSetAttr. cbn [Z.eqb Pos.eqb BK_DUTY_CYCLE]. rewrite clamp_in by (unfold BK_MIN_DUTY_CYCLE, BK_MAX_DUTY_CYCLE; lia). destruct (tr_unit t) as [? ? ? ? ? du ? ? ph ? ? ? ?]. destruct ph as [pp ? ? ?]. cbn in P. subst pp.
    cbn [un_duty]. destruct (Z.eqb_spec du d) as [->|]; [reflexivity|]. cbn [negb]. destruct (_ && _ && _); reflexivity. }
  unfold BKTrackSetAttr. cbn [Z.eqb Pos.eqb BK_DUTY_CYCLE BK_MASTER_VOLUME BK_VOLUME BK_PANNING BK_WAVEFORM]. rewrite E. cbn [bind Z.eqb set_duty un_duty]. rewrite s32_id by lia. reflexivity.
Qed.

Lemma settings_sound t d mv v p n : settings t d mv v p n = sound (put (t_panning (put (t_volume (put (t_master (put (t_duty (t_unit t (set_duty (tr_unit t) d)) d) FDuty true) mv) FVolume true) (slot 15 v)) FVolume true) (slot 15 p)) FVolume true) n.
Proof. reflexivity. Qed.

Lemma calls_settings fuel w t d mv v p n : 1 <= d <= 15 -> begun w t -> empty 15 (tr_volume t) -> empty 15 (tr_panning t) -> In w tones ->
  0 <= mv <= 32767 -> 0 <= v <= 32767 -> -32767 <= p <= 32767 -> 0 <= n <= 100663296 ->
  truns fuel t (note_calls d mv v p n) = Ok (settings t d mv v p n, [[]; []; []; []; []]).
Proof.
  intros BD B V P W BM BV BP BN. unfold note_calls. cbn [truns]. unfold tstep. rewrite !s32_id by lia. change (u32 BK_DUTY_CYCLE) with BK_DUTY_CYCLE.
  change (u32 BK_MASTER_VOLUME) with BK_MASTER_VOLUME. change (u32 BK_VOLUME) with BK_VOLUME. change (u32 BK_PANNING) with BK_PANNING. change (u32 BK_NOTE) with BK_NOTE.
  rewrite call_duty by (lia || (rewrite (bg_phase _ _ B); reflexivity)). cbn [bind]. rewrite call_master by lia. cbn [bind]. rewrite call_volume by (exact V || lia). cbn [bind]. rewrite call_panning by (exact P || lia). cbn [bind].
  rewrite call_note. { cbn [bind]. rewrite settings_sound. reflexivity. }
  - apply B. - apply B. - apply (bg_plain _ _ B). - cbn [tr_waveform put t_flags t_panning t_volume t_master t_duty t_unit]. rewrite (bg_wave _ _ B). destruct W as [<-|[<-|[<-|[<-|[]]]]]; reflexivity. - apply (bg_sustain _ _ B). - exact BN.
Qed.

Lemma fraction_range v f : 0 <= v <= 32767 -> 0 <= f <= 32767 -> 0 <= fraction v f <= v.
Proof.
  intros A B. unfold fraction. split; [apply Z.div_pos; nia|]. transitivity (v * 32768 / 32768); [apply Z.div_le_mono; nia|rewrite Z.div_mul by lia; lia].
Qed.

Lemma level_range w mv v : 0 <= mv <= 32767 -> 0 <= v <= 32767 -> 0 <= note_level w mv v <= mv.
Proof.
  intros A B. unfold note_level. unfold fraction. rewrite Z.mul_comm. apply (fraction_range mv); [lia|]. destruct (_ && _); lia.
Qed.

Lemma put_volumes t w nch mv v p : has t FInstr = false -> has t FTremolo = false -> has t FIgnore = (w =? BK_TRIANGLE) -> has t FPan = (nch =? 2) ->
  tr_volume t = slot 15 v -> tr_panning t = slot 15 p -> tr_master t = mv -> un_volume (tr_unit t) = repeat 0 8 ->
  0 <= mv <= 32767 -> 0 <= v <= 32767 -> -32767 <= p <= 32767 ->
  BKTrackUpdateUnitVolume t = Ok (t_unit t (set_volume (tr_unit t) (note_volumes nch (note_level w mv v) p))).
Proof.
  intros I T G N V P M U BM BV BP. pose proof (level_range w mv v BM BV) as L. unfold BKTrackUpdateUnitVolume, track_levels.
  rewrite V, P, !slot_value by lia. cbn [bind]. rewrite I, T, G, M. cbn [bind andb].
  replace (BKClamp _ 0 BK_MAX_VOLUME) with (if (w =? BK_TRIANGLE) && negb (v =? 0) then 32767 else v) by (symmetry; apply clamp_in; unfold BK_MAX_VOLUME; destruct (_ && _); lia).
  rewrite chk32_ok by (destruct (_ && _); nia). cbn [bind]. change BK_VOLUME_SHIFT with 15. rewrite !Z.shiftr_div_pow2 by lia. change (2 ^ 15) with 32768.
  change ((if (w =? BK_TRIANGLE) && negb (v =? 0) then 32767 else v) * mv / 32768) with (note_level w mv v). set (l := note_level w mv v) in *. rewrite N. unfold note_volumes.
  rewrite andb_comm. destruct ((nch =? 2) && negb (p =? 0)) eqn:Q.
  - rewrite clamp_in by (unfold BK_MAX_VOLUME; lia). unfold BK_MAX_VOLUME.
    assert (E0 : (if p >? 0 then let* m := chk32 ((32767 - p) * l) in Ok (Z.shiftr m 15) else Ok l) = Ok (if p >? 0 then fraction l (32767 - p) else l)).
    { destruct (Z.gtb_spec p 0); [|reflexivity]. rewrite chk32_ok by nia. cbn [bind]. rewrite Z.shiftr_div_pow2 by lia. unfold fraction. f_equal. f_equal. lia. }
    assert (E1 : (if p <? 0 then let* m := chk32 ((32767 + p) * l) in Ok (Z.shiftr m 15) else Ok l) = Ok (if p <? 0 then fraction l (32767 + p) else l)).
    { destruct (Z.ltb_spec p 0); [|reflexivity]. rewrite chk32_ok by nia. cbn [bind]. rewrite Z.shiftr_div_pow2 by lia. unfold fraction. f_equal. f_equal. lia. }
    change (32767 - p) with (32767 - p) in E0. rewrite E0. cbn [bind]. rewrite E1. cbn [bind].
    assert (B0 : 0 <= (if p >? 0 then fraction l (32767 - p) else l) <= 32767). { destruct (Z.gtb_spec p 0); [|lia]. pose proof (fraction_range l (32767 - p)). lia. }
    assert (B1 : 0 <= (if p <? 0 then fraction l (32767 + p) else l) <= 32767). { destruct (Z.ltb_spec p 0); [|lia]. pose proof (fraction_range l (32767 + p)). lia. }
    clear E0 E1. set (a := if p >? 0 then fraction l (32767 - p) else l) in *. set (b := if p <? 0 then fraction l (32767 + p) else l) in *. unfold unit_attr.
    assert (F0 : BKUnitSetAttr (tr_unit t) BK_VOLUME_0 a = Ok (set_volume (tr_unit t) (a :: repeat 0 7), 0)).
    { unfold BKUnitSetAttr. cbn [Z.eqb Pos.eqb Z.leb Z.compare Pos.compare Pos.compare_cont andb]. rewrite U, (clamp_in a 0 BK_MAX_VOLUME) by (unfold BK_MAX_VOLUME; lia). reflexivity. }
    rewrite F0. cbn [bind]. change (tr_unit (t_unit t ?u)) with u. 
    assert (F1 : BKUnitSetAttr (set_volume (tr_unit t) (a :: repeat 0 7)) (BK_VOLUME_0 + 1) b = Ok (set_volume (tr_unit t) (a :: b :: repeat 0 6), 0)).
    { unfold BKUnitSetAttr. rewrite (clamp_in b 0 BK_MAX_VOLUME) by (unfold BK_MAX_VOLUME; lia). reflexivity. }
    change (tr_unit (t_unit t (set_volume (tr_unit t) (a :: repeat 0 7)))) with (set_volume (tr_unit t) (a :: repeat 0 7)). rewrite F1. reflexivity.
  - unfold unit_attr, BKUnitSetAttr. cbn [Z.eqb Pos.eqb BK_VOLUME BK_DUTY_CYCLE]. rewrite (clamp_in l 0 BK_MAX_VOLUME) by (unfold BK_MAX_VOLUME; lia). reflexivity.
Qed.

Lemma put_note t w nch n rate per : un_ctx (tr_unit t) = Some nch -> In w tones -> tr_waveform t = w -> has t FArp = false -> has t FVibrato = false -> has t FInstr = false ->
  tr_pitch t = 0 -> tr_note t = slot 0 n -> tr_rate t = rate -> ph_count (un_phase (tr_unit t)) = phases w -> 0 <= n <= 100663296 -> BKTonePeriodLookup n rate = Ok per ->
  0 <= per <= 3077760000 ->
  BKTrackUpdateUnitNote t = Ok (t_unit t (set_period (tr_unit t) (per / phases w))).
Proof.
  intros C W TW A V I P N R PH BN E BP. unfold BKTrackUpdateUnitNote, track_note. rewrite C, N, slot_value by lia. cbn [bind]. rewrite A. cbn [bind]. rewrite V. cbn [bind]. rewrite I. cbn [bind].
  rewrite P, Z.add_0_r, chk32_ok by lia. cbn [bind]. rewrite TW, R, E, PH. cbn [bind].
  assert (K : (w =? BK_SAMPLE) = false /\ BKMin (phases w) BK_WAVE_MAX_LENGTH = phases w /\ 2 <= phases w <= 64) by (destruct W as [<-|[<-|[<-|[<-|[]]]]]; vm_compute; repeat split; congruence).
  destruct K as (-> & -> & K). cbn [negb]. destruct (Z.eqb_spec (phases w) 0); [lia|].
  assert (Q : u32 (s32 per) = per) by (apply u32_s32; lia).
  assert (D : 0 <= per / phases w <= 2147483647). { split; [apply Z.div_pos; lia|]. apply Z.lt_succ_r, Z.div_lt_upper_bound; lia. }
  rewrite Q, s32_id by lia. unfold unit_attr. match goal with |- context[BKUnitSetAttr ?u BK_PERIOD ?v] => change (BKUnitSetAttr u BK_PERIOD v) with (let* x := abs32 v in Ok (set_period u (BKMax x BK_MIN_PERIOD), 0)) end.
  unfold abs32. destruct (Z.ltb_spec (per / phases w) 0); [lia|]. cbn [bind]. unfold BKMax, BK_MIN_PERIOD. destruct (Z.gtb_spec (per / phases w) 0); [reflexivity|]. replace (per / phases w) with 0 by lia. reflexivity.
Qed.

Lemma unit_eta u : u = mk_unit (un_ctx u) (un_time u) (un_period u) (un_lastPulse u) (un_waveform u) (un_duty u) (un_volume u) (un_mute u) (un_phase u) (un_sample u) (un_sustain u) (un_jump u) (un_release u).
Proof. destruct u. reflexivity. Qed.

Record prepared (nch rate w d mv v p n : Z) (t : track) : Prop := {
  pr_pan : has t FPan = (nch =? 2);
  pr_flags : has t FVolume = true /\ has t FNote = true /\ has t FDuty = true;
  pr_plain : has t FArp = false /\ has t FInstr = false /\ any_effect t = false /\ has t FTremolo = false /\ has t FVibrato = false;
  pr_ignore : has t FIgnore = (w =? BK_TRIANGLE);
  pr_slots : tr_volume t = slot 15 v /\ tr_panning t = slot 15 p /\ tr_note t = slot 0 n;
  pr_values : tr_master t = mv /\ tr_duty t = d /\ tr_pitch t = 0 /\ tr_rate t = rate /\ tr_waveform t = w;
  pr_unit : exists per, tr_unit t = mk_unit (Some nch) 0 per (repeat 0 8) w d (repeat 0 8) 0 (mk_phase 0 0 0 (phases w)) no_sample false false false }.

Lemma settings_facts w t0 d mv v p n : begun w t0 -> let t := settings t0 d mv v p n in
  (has t FPan = false /\ has t FVolume = true /\ has t FNote = true /\ has t FDuty = true) /\
  (has t FArp = false /\ has t FInstr = false /\ any_effect t = false /\ has t FTremolo = false /\ has t FVibrato = false /\ has t FIgnore = (w =? BK_TRIANGLE)) /\
  (tr_volume t = slot 15 v /\ tr_panning t = slot 15 p /\ tr_note t = slot 0 n) /\
  (tr_master t = mv /\ tr_duty t = d /\ tr_pitch t = 0 /\ tr_waveform t = w) /\
  tr_unit t = mk_unit None (un_time (tr_unit t0)) (un_period (tr_unit t0)) (repeat 0 8) w d (repeat 0 8) 0 (mk_phase 0 0 0 (phases w)) no_sample false false false.
Proof.
  intros B t. destruct (bg_plain _ _ B) as ((PA & PI & PE) & PP & PT & PV & PD).
  split; [split; [exact PP|split; [reflexivity|split; reflexivity]]|].
  split; [split; [exact PA|split; [exact PI|split; [exact PE|split; [exact PT|split; [exact PV|exact (bg_ignore _ _ B)]]]]]|].
  split; [split; [reflexivity|split; reflexivity]|].
  split; [split; [reflexivity|split; [reflexivity|split; [exact (bg_pitch _ _ B)|exact (bg_wave _ _ B)]]]|].
  destruct (bg_sustain _ _ B) as (S1 & S2 & S3 & S4). destruct (bg_time _ _ B) as (L1 & L2).
  change (tr_unit t) with (set_mute (set_duty (tr_unit t0) d) 0). rewrite (unit_eta (set_mute (set_duty (tr_unit t0) d) 0)).
  cbn [set_mute set_duty un_ctx un_time un_period un_lastPulse un_waveform un_duty un_volume un_mute un_phase un_sample un_sustain un_jump un_release].
  rewrite (bg_ctx _ _ B), (bg_wave' _ _ B), (bg_phase _ _ B), S1, S2, S3, S4, L1, L2. reflexivity.
Qed.

Lemma update_prepared nch rate id w d mv v p n t : part_good (mk_part id w d mv v p n) -> prepared nch rate w d mv v p n t ->
  exists t', BKTrackUpdateUnit t = Ok t' /\ tr_unit t' = part_unit nch rate (mk_part id w d mv v p n) /\ plainly t' /\ settled t'.
Proof.
  intros (W & BD & BM & BV & BP & BN) [HP (FV & FN & FD) (PA & PI & PE & PT & PV) G (V1 & V2 & V3) (M1 & M2 & M3 & M4 & M5) (per0 & UT)].
  cbn [pt_wave pt_duty pt_master pt_volume pt_panning pt_note] in *. destruct (tone_bounds n rate) as (per & EP & BPER).
  unfold BKTrackUpdateUnit. rewrite FV. rewrite (put_volumes t w nch mv v p) by (assumption || (rewrite UT; reflexivity)). cbn [bind].
  set (u1 := set_volume (tr_unit t) (note_volumes nch (note_level w mv v) p)).
  change (has (put (t_unit t u1) FVolume false) FNote) with (has t FNote). rewrite FN.
  rewrite (put_note (put (t_unit t u1) FVolume false) w nch n rate per); try assumption; try (change (tr_unit (put (t_unit t u1) FVolume false)) with u1; unfold u1; rewrite UT; reflexivity); [|lia].
  cbn [bind]. change (tr_unit (put (t_unit t u1) FVolume false)) with u1. set (u2 := set_period u1 (per / phases w)).
  change (has (put (t_unit (put (t_unit t u1) FVolume false) u2) FNote false) FDuty) with (has t FDuty). rewrite FD.
  assert (UT2 : u2 = part_unit nch rate (mk_part id w d mv v p n)).
  { unfold u2, u1. rewrite UT. unfold part_unit, tone_period. cbn [pt_note pt_wave pt_duty pt_master pt_volume pt_panning]. rewrite EP. reflexivity. }
  unfold BKTrackUpdateUnitDutyCycle. change (has (put (t_unit (put (t_unit t u1) FVolume false) u2) FNote false) FInstr) with (has t FInstr). rewrite PI. cbn [bind].
  change (tr_duty (put (t_unit (put (t_unit t u1) FVolume false) u2) FNote false)) with (tr_duty t). rewrite M2. unfold unit_attr.
  change (tr_unit (put (t_unit (put (t_unit t u1) FVolume false) u2) FNote false)) with u2.
  assert (DU : BKUnitSetAttr u2 BK_DUTY_CYCLE d = Ok (u2, 0)).
  { unfold BKUnitSetAttr. cbn [Z.eqb Pos.eqb BK_DUTY_CYCLE]. rewrite clamp_in by (unfold BK_MIN_DUTY_CYCLE, BK_MAX_DUTY_CYCLE; lia). rewrite UT2. cbn [part_unit un_duty pt_duty]. rewrite Z.eqb_refl. reflexivity. }
  rewrite DU. cbn [bind]. eexists. split; [reflexivity|]. split; [exact UT2|]. clear UT2 DU. split.
  - split; [exact PA|]. split; [exact PI|exact PE].
  - split; [reflexivity|]. split; reflexivity.
Qed.

Lemma attach_part fuel x t nch rate : part_good x -> part_track fuel x t -> exists t', BKTrackAttach t nch rate 0 = Ok (t', 0) /\ tr_unit t' = part_unit nch rate x /\ plainly t' /\ settled t'.
Proof.
  intros GX (t0 & ls & I & E). pose proof GX as (W & BD & BM & BV & BP & BN). destruct x as [id w d mv v p n]. unfold part_calls in E. cbn [pt_wave pt_duty pt_master pt_volume pt_panning pt_note] in *.
  destruct (init_begun fuel w t0 W I) as (B & V & P). rewrite (calls_settings fuel w t0 d mv v p n BD B V P W BM BV BP BN) in E.
  assert (t = settings t0 d mv v p n) as -> by congruence. clear E I.
  destruct (settings_facts w t0 d mv v p n B) as ((P1 & P2 & P3 & P4) & (Q1 & Q2 & Q3 & Q4 & Q5 & Q6) & S & (M1 & M2 & M3 & M4) & U).
  generalize dependent (settings t0 d mv v p n). intros t. intros.
  unfold BKTrackAttach, BKUnitAttach. rewrite U. cbn [un_ctx Z.eqb].
  match goal with |- context[t_unit t ?u] => set (u0 := u) end.
  assert (PR : prepared nch rate w d mv v p n (put (if nch =? 2 then put (t_rate (t_unit t u0) rate) FPan true else t_rate (t_unit t u0) rate) FVolume true)).
  { destruct (nch =? 2) eqn:N2; (split; [rewrite N2; (reflexivity || exact P1)|split; [reflexivity|split; assumption]|split; [exact Q1|split; [exact Q2|split; [exact Q3|split; assumption]]]|exact Q6|exact S|
      split; [exact M1|split; [exact M2|split; [exact M3|split; [reflexivity|exact M4]]]]|exists (un_period (tr_unit t0)); reflexivity]). }
  destruct (update_prepared nch rate id w d mv v p n _ GX PR) as (t' & E & R). rewrite E. exists t'. split; [reflexivity|exact R].
Qed.

Lemma part_holds nch rate x t : part_good x -> tr_unit t = part_unit nch rate x -> plainly t -> settled t -> holds t (part_unit nch rate x).
Proof.
  intros (W & BD & BM & BV & BP & BN) E P S. split; [exact P|]. split; [|exists t; split; [apply settled_update, S|exact E]].
  destruct (tone_bounds (pt_note x) rate) as (per & EP & B). unfold tonal, part_unit, tone_period. rewrite EP. cbn [un_waveform un_phase un_mute un_period ph_wrap].
  assert (K : 2 <= phases (pt_wave x) <= 64 /\ BK_SQUARE <= pt_wave x <= BK_CUSTOM /\ pt_wave x <> BK_NOISE) by (destruct W as [<-|[<-|[<-|[<-|[]]]]]; vm_compute; repeat split; congruence).
  destruct K as (K & K1 & K2). split; [exact K1|]. split; [exact K2|]. split; [auto|]. split; [reflexivity|]. apply Z.div_str_pos. lia.
Qed.

(** ** A chord *)

Definition chord (xs : list tone_part) (ts : list track) : list xop := map (fun it => XAttachTrack (pt_id (fst it)) (snd it)) (combine xs ts).

Lemma chord_runs m nn e fuel : forall xs ts c, Forall part_good xs -> Forall2 (part_track fuel) xs ts -> cx_delta c = 0 ->
  exists c' ts', xruns m nn e fuel c (chord xs ts) = Ok (c', map (fun _ => []) xs) /\ cx_tracks c' = cx_tracks c ++ ts' /\
    Forall2 (fun it u => holds (snd it) u) ts' (map (part_unit (numChannels c) (cx_rate c)) xs).
Proof.
  induction xs as [|x xs IH]; intros ts c G T D; inversion T as [|x' t xs' ts' T1 T2]; subst.
  { exists c, []. split; [reflexivity|]. split; [symmetry; apply app_nil_r|constructor]. }
  inversion G as [|? ? G1 G2]; subst. destruct (attach_part fuel x t (numChannels c) (cx_rate c) G1 T1) as (t' & EA & U & P & S).
  set (c1 := attach_master (x_tracks c (cx_tracks c ++ [(pt_id x, t')]))).
  assert (S1 : xstep m nn e fuel c (XAttachTrack (pt_id x) t) = Ok (c1, [])) by (cbn [xstep]; unfold attach_track; rewrite D, EA; reflexivity).
  destruct (attach_master_same (x_tracks c (cx_tracks c ++ [(pt_id x, t')]))) as (C1 & C2 & C3 & C4). fold c1 in C1, C2, C3, C4.
  assert (R : cx_rate c1 = cx_rate c). { unfold c1, attach_master. destruct (BKTimeIsGreater _ _); [destruct (existsb _ _)|]; reflexivity. }
  destruct (IH ts' c1 G2 T2) as (c' & us & E & ET & H); [rewrite C3; exact D|].
  exists c', ((pt_id x, t') :: us). split.
  - change (chord (x :: xs) (t :: ts')) with (XAttachTrack (pt_id x) t :: chord xs ts'). cbn [xruns]. rewrite S1. cbn [bind]. rewrite E. reflexivity.
  - split; [rewrite ET, C4; cbn [x_tracks cx_tracks]; rewrite <- app_assoc; reflexivity|]. cbn [map]. constructor; [apply part_holds; assumption|].
    unfold numChannels in *. rewrite C1, R in H. exact H.
Qed.

Definition loudness (xs : list tone_part) (id : Z) : Z := match find (fun x => pt_id x =? id) xs with Some x => pt_master x | None => 0 end.

Lemma loudness_in xs x : NoDup (map pt_id xs) -> In x xs -> loudness xs (pt_id x) = pt_master x.
Proof.
  unfold loudness. induction xs as [|y xs IH]; [intros _ []|]. cbn [map]. intros N I. inversion N as [|? ? N1 N2]; subst. cbn [find]. destruct (Z.eqb_spec (pt_id y) (pt_id x)) as [E|NE].
  - destruct I as [->|I]; [reflexivity|]. exfalso. apply N1. rewrite E. apply in_map, I.
  - destruct I as [->|I]; [congruence|]. apply IH; assumption.
Qed.

Lemma part_made fuel x t : part_good x -> part_track fuel x t -> made fuel (pt_master x) t.
Proof.
  intros (W & BD & BM & BV & BP & BN) (t0 & ls & I & E). exists (pt_wave x), t0, (part_calls x), ls. split.
  { destruct W as [<-|[<-|[<-|[<-|[]]]]]; vm_compute; congruence. }
  split; [exact I|]. split; [|exact E]. unfold part_calls, note_calls.
  assert (K : forall a v, in_u32 a = true -> -2147483648 < v <= 2147483647 -> a <> BK_ARPEGGIO_DIVIDER -> a <> BK_EFFECT_DIVIDER -> a <> BK_INSTRUMENT_DIVIDER -> (sets_volume a -> v <= pt_master x) -> calm_call fuel (pt_master x) (OAttr a v)).
  { intros a v A1 A2 A3 A4 A5 A6. split; [exact A1|]. split; [apply in_s32_spec; lia|]. split; [lia|]. split; [intros [Q | [Q | Q]]; congruence|exact A6]. }
  repeat apply Forall_cons; [apply K; try reflexivity; try lia; try discriminate..|constructor]; unfold sets_volume; vm_compute; intuition congruence.
Qed.

Lemma chord_calm fuel xs : NoDup (map pt_id xs) -> forall ys ts ids used, incl ys xs -> Forall part_good ys -> Forall2 (part_track fuel) ys ts -> used + zsum (map pt_master ys) <= 16383 -> 
  calm fuel (loudness xs) 16383 false ids used 0 (chord ys ts).
Proof.
  intros N. induction ys as [|x ys IH]; intros ts ids used I G T L; inversion T as [|x' t ys' ts' T1 T2]; subst; [exact Logic.I|]. inversion G as [|? ? G1 G2]; subst.
  change (chord (x :: ys) (t :: ts')) with (XAttachTrack (pt_id x) t :: chord ys ts'). cbn [calm]. rewrite (loudness_in xs x N) by (apply I; left; reflexivity).
  change (zsum (map pt_master (x :: ys))) with (pt_master x + zsum (map pt_master ys)) in L.
  assert (0 <= zsum (map pt_master ys)). { clear - G2. induction G2 as [|y ys G GS IH]; [cbn; lia|]. change (zsum (map pt_master (y :: ys))) with (pt_master y + zsum (map pt_master ys)). destruct G as (_ & _ & B & _). lia. }
  split; [apply G1|]. split; [apply part_made; assumption|]. split; [lia|]. apply IH; try assumption; [intros y Y; apply I; right; exact Y|lia].
Qed.

Lemma xruns_app m nn e fuel : forall a b c c1 l1, xruns m nn e fuel c a = Ok (c1, l1) -> xruns m nn e fuel c (a ++ b) = let* (c2, l2) := xruns m nn e fuel c1 b in Ok (c2, l1 ++ l2).
Proof.
  induction a as [|o a IH]; intros b c c1 l1 E; cbn [xruns app] in *.
  - assert (c1 = c) as -> by congruence. assert (l1 = []) as -> by congruence. destruct (xruns m nn e fuel c b) as [[c2 l2]|]; reflexivity.
  - binv E r E1. destruct r as [c2 l2]. binv E r E2. destruct r as [c3 l3]. assert (c1 = c3) as -> by congruence. assert (l1 = l2 :: l3) as -> by congruence. rewrite E1. cbn [bind]. rewrite (IH b _ _ _ E2). cbn [bind].
    destruct (xruns m nn e fuel c3 b) as [[c4 l4]|]; reflexivity.
Qed.

(** Tracks which are attached with these attributes are heard as the sum of their waveforms, in
    requests of any sizes. *)
Theorem C113_chord ch rate period fuel e m nn xs ts sizes :
  0 < period <= MAX_CLOCK -> env_still e -> 1789570706 <= Z.of_nat fuel -> 4194304 <= Z.of_nat m -> 1073741824 < Z.of_nat nn ->
  xs <> [] -> NoDup (map pt_id xs) -> Forall part_good xs -> zsum (map pt_master xs) <= 16383 -> Forall2 (part_track fuel) xs ts ->
  Forall (fun s => 0 <= s < 4294967296) sizes -> zsum sizes <= MAX_FRAMES ->
  let channels := BKClamp (u32 ch) 1 BK_MAX_CHANNELS in
  exists c frames, xruns m nn e fuel (BKContextInit ch rate period) (chord xs ts ++ map XGenerate sizes) = Ok (c, map (fun _ => []) xs ++ frames) /\
    forall k, (k < Z.to_nat channels)%nat ->
      concat (map (fun f => nth k f []) frames) = melody (map (part_unit channels (BKClamp (u32 rate) BK_MIN_SAMPLE_RATE BK_MAX_SAMPLE_RATE)) xs) k (zsum sizes).
Proof.
  intros P ES HF HM HN NE ND G L T SZ MF channels. pose proof (channels_range ch) as NC. fold channels in NC.
  destruct (chord_runs m nn e fuel xs ts (BKContextInit ch rate period) G T eq_refl) as (c & ts' & E & ET & H).
  assert (NCH : numChannels (BKContextInit ch rate period) = channels). { unfold numChannels, BKContextInit. cbn [cx_channels]. rewrite repeat_length. fold channels. lia. }
  rewrite NCH in H. change (cx_tracks (BKContextInit ch rate period)) with (@nil (Z * track)) in ET. cbn [app] in ET. rewrite <- ET in H.
  assert (NT : cx_tracks c <> []). { intros Q. rewrite Q in H. destruct xs; [congruence|]. inversion H. }
  assert (CA : calm fuel (loudness xs) 16383 false [] 0 0 (chord xs ts)) by (apply (chord_calm fuel xs ND); try assumption; intros y Y; exact Y).
  assert (ST : Forall setting (chord xs ts)). { unfold chord. apply Forall_forall. intros o O. apply in_map_iff in O. destruct O as (y & <- & _). exact Logic.I. }
  destruct (C113_held ch rate period fuel (loudness xs) e m nn (chord xs ts) sizes c _ _ P ES ST CA HF HM HN E NT H SZ MF) as (c' & fs & R & K).
  exists c', fs. split; [|exact K]. rewrite (xruns_app _ _ _ _ _ _ _ _ _ E), R. reflexivity.
Qed.

(** ** Example *)

(** A square wave to the left of a sine wave. *)
Definition two_parts : list tone_part := [mk_part 3 BK_SQUARE 4 8000 20000 (-16000) (60 * 1048576); mk_part 7 BK_SINE 8 6000 32767 16000 (70 * 1048576 + 500000)].
Definition part_make (x : tone_part) : track := match BKTrackInit 0 (pt_wave x) with Ok t0 => match truns 0 t0 (part_calls x) with Ok (t, _) => t | Err _ => t0 end | Err _ => track0 end.
Definition quiet_env : env := mk_env (fun _ _ _ => 0) (fun _ _ _ => []).
Definition heard (r : res (context * list (list (list Z)))) : list (list (list Z)) := match r with Ok (_, l) => l | Err _ => [] end.

Definition part_start (x : tone_part) : track := match BKTrackInit 0 (pt_wave x) with Ok t => t | Err _ => track0 end.
Lemma two_tracks fuel : Forall2 (part_track fuel) two_parts (map part_make two_parts).
Proof.
  unfold two_parts. cbn [map]. constructor; [|constructor; [|constructor]].
  - exists (part_start (mk_part 3 BK_SQUARE 4 8000 20000 (-16000) (60 * 1048576))), [[]; []; []; []; []]. split; vm_compute; reflexivity.
  - exists (part_start (mk_part 7 BK_SINE 8 6000 32767 16000 (70 * 1048576 + 500000))), [[]; []; []; []; []]. split; vm_compute; reflexivity.
Qed.

Example C113_example : env_still quiet_env /\ NoDup (map pt_id two_parts) /\ Forall part_good two_parts /\ zsum (map pt_master two_parts) = 14000 /\
  (forall fuel, Forall2 (part_track fuel) two_parts (map part_make two_parts)) /\
  (let us := map (part_unit 2 44100) two_parts in
   heard (xruns 1 100 quiet_env 1000 (BKContextInit 2 44100 (20 * 1048576)) (chord two_parts (map part_make two_parts) ++ map XGenerate [3; 0; 30])) =
   [[]; []; [firstn 3 (melody us 0 33); firstn 3 (melody us 1 33)]; [[]; []]; [skipn 3 (melody us 0 33); skipn 3 (melody us 1 33)]] /\
   map un_volume us = [[4882; 2498; 0; 0; 0; 0; 0; 0]; [3069; 5999; 0; 0; 0; 0; 0; 0]] /\ map un_period us = [2756250; 749700] /\
   nth 24 (melody us 0 33) 0 = 12527 /\ nth 24 (melody us 1 33) 0 = 9416).
Proof.
  split; [split; [reflexivity|vm_compute; congruence]|].
  split; [vm_compute; constructor; [intros [Q|[]]; discriminate Q|constructor; [intros []|constructor]]|].
  split; [repeat constructor; vm_compute; intuition congruence|].
  split; [reflexivity|].
  split; [exact two_tracks|].
  vm_compute. repeat split; reflexivity.
Qed.

Print Assumptions C113_chord.
Print Assumptions C113_example.
