(** Model of BKTrack.c.

    The unit of a track is the one of UnitModel.v, its slides and intervals those of
    InterpModel.v, its instrument state that of SequenceModel.v.  The ticks a track gets
    from its divider (ClockModel.v) are operations here.  Integers passed by pointer are
    lists; a size is a number of bytes and a multiple of 4 ([sizeof (BKInt)]). *)
From Verif Require Import CInt DataModel UnitModel InterpModel ToneModel SequenceModel.

(** BKBase.h lines 93, 119-121; BKTone.h lines 38-39; BKTrack.c line 30. *)
Definition BK_MAX_ARPEGGIO : Z := 8.
Definition BK_DEFAULT_ARPEGGIO_DIVIDER : Z := 4.
Definition BK_DEFAULT_INSTR_DIVIDER : Z := 4.
Definition BK_DEFAULT_EFFECT_DIVIDER : Z := 1.
Definition BK_NOTE_RELEASE : Z := -1.
Definition BK_NOTE_MUTE : Z := -2.
Definition BK_TRACK_EFFECT_MAX_STEPS : Z := 65536.

(** BKBase.h lines 219-220 and 304-312. *)
Definition BK_EFFECT_TYPE : Z := 20480.
Definition BK_EFFECT_VOLUME_SLIDE : Z := 20481.
Definition BK_EFFECT_PANNING_SLIDE : Z := 20482.
Definition BK_EFFECT_PORTAMENTO : Z := 20483.
Definition BK_EFFECT_TREMOLO : Z := 20484.
Definition BK_EFFECT_VIBRATO : Z := 20485.
Definition attr_type (attr : Z) : Z := Z.land attr (Z.lnot (2 ^ 12 - 1)).

(** BKInstrument.h lines 38-41: slots. *)
Definition BK_SEQUENCE_VOLUME : Z := 0.
Definition BK_SEQUENCE_PANNING : Z := 1.
Definition BK_SEQUENCE_PITCH : Z := 2.
Definition BK_SEQUENCE_DUTY_CYCLE : Z := 3.

(** The bits of [flags], BKTrack.h lines 37-57, one member for each (BaseModel.v has
    the word itself). *)
Record tflags := mk_tflags {
  tf_instr : bool;
  tf_arp : bool;
  tf_pan : bool;
  tf_tri : bool;
  tf_ignore : bool;
  tf_volume : bool;
  tf_note : bool;
  tf_duty : bool;
  tf_volSlide : bool;
  tf_panSlide : bool;
  tf_porta : bool;
  tf_tremolo : bool;
  tf_vibrato : bool
}.
Inductive tflag := FInstr | FArp | FPan | FTri | FIgnore | FVolume | FNote | FDuty | FVolSlide | FPanSlide | FPorta | FTremolo | FVibrato.
Definition fget (f : tflags) (k : tflag) : bool :=
  match k with
  | FInstr => tf_instr f
  | FArp => tf_arp f
  | FPan => tf_pan f
  | FTri => tf_tri f
  | FIgnore => tf_ignore f
  | FVolume => tf_volume f
  | FNote => tf_note f
  | FDuty => tf_duty f
  | FVolSlide => tf_volSlide f
  | FPanSlide => tf_panSlide f
  | FPorta => tf_porta f
  | FTremolo => tf_tremolo f
  | FVibrato => tf_vibrato f
  end.
Definition fset (f : tflags) (k : tflag) (b : bool) : tflags :=
  match k with
  | FInstr => mk_tflags b (tf_arp f) (tf_pan f) (tf_tri f) (tf_ignore f) (tf_volume f) (tf_note f) (tf_duty f) (tf_volSlide f) (tf_panSlide f) (tf_porta f) (tf_tremolo f) (tf_vibrato f)
  | FArp => mk_tflags (tf_instr f) b (tf_pan f) (tf_tri f) (tf_ignore f) (tf_volume f) (tf_note f) (tf_duty f) (tf_volSlide f) (tf_panSlide f) (tf_porta f) (tf_tremolo f) (tf_vibrato f)
  | FPan => mk_tflags (tf_instr f) (tf_arp f) b (tf_tri f) (tf_ignore f) (tf_volume f) (tf_note f) (tf_duty f) (tf_volSlide f) (tf_panSlide f) (tf_porta f) (tf_tremolo f) (tf_vibrato f)
  | FTri => mk_tflags (tf_instr f) (tf_arp f) (tf_pan f) b (tf_ignore f) (tf_volume f) (tf_note f) (tf_duty f) (tf_volSlide f) (tf_panSlide f) (tf_porta f) (tf_tremolo f) (tf_vibrato f)
  | FIgnore => mk_tflags (tf_instr f) (tf_arp f) (tf_pan f) (tf_tri f) b (tf_volume f) (tf_note f) (tf_duty f) (tf_volSlide f) (tf_panSlide f) (tf_porta f) (tf_tremolo f) (tf_vibrato f)
  | FVolume => mk_tflags (tf_instr f) (tf_arp f) (tf_pan f) (tf_tri f) (tf_ignore f) b (tf_note f) (tf_duty f) (tf_volSlide f) (tf_panSlide f) (tf_porta f) (tf_tremolo f) (tf_vibrato f)
  | FNote => mk_tflags (tf_instr f) (tf_arp f) (tf_pan f) (tf_tri f) (tf_ignore f) (tf_volume f) b (tf_duty f) (tf_volSlide f) (tf_panSlide f) (tf_porta f) (tf_tremolo f) (tf_vibrato f)
  | FDuty => mk_tflags (tf_instr f) (tf_arp f) (tf_pan f) (tf_tri f) (tf_ignore f) (tf_volume f) (tf_note f) b (tf_volSlide f) (tf_panSlide f) (tf_porta f) (tf_tremolo f) (tf_vibrato f)
  | FVolSlide => mk_tflags (tf_instr f) (tf_arp f) (tf_pan f) (tf_tri f) (tf_ignore f) (tf_volume f) (tf_note f) (tf_duty f) b (tf_panSlide f) (tf_porta f) (tf_tremolo f) (tf_vibrato f)
  | FPanSlide => mk_tflags (tf_instr f) (tf_arp f) (tf_pan f) (tf_tri f) (tf_ignore f) (tf_volume f) (tf_note f) (tf_duty f) (tf_volSlide f) b (tf_porta f) (tf_tremolo f) (tf_vibrato f)
  | FPorta => mk_tflags (tf_instr f) (tf_arp f) (tf_pan f) (tf_tri f) (tf_ignore f) (tf_volume f) (tf_note f) (tf_duty f) (tf_volSlide f) (tf_panSlide f) b (tf_tremolo f) (tf_vibrato f)
  | FTremolo => mk_tflags (tf_instr f) (tf_arp f) (tf_pan f) (tf_tri f) (tf_ignore f) (tf_volume f) (tf_note f) (tf_duty f) (tf_volSlide f) (tf_panSlide f) (tf_porta f) b (tf_vibrato f)
  | FVibrato => mk_tflags (tf_instr f) (tf_arp f) (tf_pan f) (tf_tri f) (tf_ignore f) (tf_volume f) (tf_note f) (tf_duty f) (tf_volSlide f) (tf_panSlide f) (tf_porta f) (tf_tremolo f) b
  end.

(** [BKDividerState], BKTrack.h lines 59-63. *)
Record dstate := mk_dstate { ds_divider : Z; ds_counter : Z }.

(** [BKArpeggioState], BKTrack.h lines 65-71. *)
Record arpstate := mk_arp { ar_offset : Z; ar_delta : Z; ar_count : Z; ar_notes : list Z }.

(** [struct BKTrack], BKTrack.h lines 73-99.  [tr_rate] is [unit.ctx -> sampleRate] when the
    unit is attached; [tr_dataId] identifies the object [unit.sample.dataState.data] points
    to when there is one; [tr_instr] is [instrState.instrument], the object and its contents,
    and the rest of [instrState] is [tr_istate].  The member [sample] is never used. *)
Record track := mk_track {
  tr_unit : bkunit;
  tr_rate : Z;
  tr_dataId : Z;
  tr_flags : tflags;
  tr_arpDiv : dstate;
  tr_instrDiv : dstate;
  tr_effDiv : dstate;
  tr_waveform : Z;
  tr_duty : Z;
  tr_samplePitch : Z;
  tr_master : Z;
  tr_volume : slide;
  tr_panning : slide;
  tr_curNote : Z;
  tr_note : slide;
  tr_pitch : Z;
  tr_tremolo : interval;
  tr_tremoloDelta : slide;
  tr_tremoloSteps : slide;
  tr_vibrato : interval;
  tr_vibratoDelta : slide;
  tr_vibratoSteps : slide;
  tr_arpeggio : arpstate;
  tr_instr : option (Z * instrument);
  tr_istate : istate
}.
(** Assignments to single members. *)
Definition t_unit t v := mk_track v (tr_rate t) (tr_dataId t) (tr_flags t) (tr_arpDiv t) (tr_instrDiv t) (tr_effDiv t) (tr_waveform t) (tr_duty t) (tr_samplePitch t) (tr_master t) (tr_volume t) (tr_panning t) (tr_curNote t) (tr_note t) (tr_pitch t) (tr_tremolo t) (tr_tremoloDelta t) (tr_tremoloSteps t) (tr_vibrato t) (tr_vibratoDelta t) (tr_vibratoSteps t) (tr_arpeggio t) (tr_instr t) (tr_istate t).
Definition t_rate t v := mk_track (tr_unit t) v (tr_dataId t) (tr_flags t) (tr_arpDiv t) (tr_instrDiv t) (tr_effDiv t) (tr_waveform t) (tr_duty t) (tr_samplePitch t) (tr_master t) (tr_volume t) (tr_panning t) (tr_curNote t) (tr_note t) (tr_pitch t) (tr_tremolo t) (tr_tremoloDelta t) (tr_tremoloSteps t) (tr_vibrato t) (tr_vibratoDelta t) (tr_vibratoSteps t) (tr_arpeggio t) (tr_instr t) (tr_istate t).
Definition t_dataId t v := mk_track (tr_unit t) (tr_rate t) v (tr_flags t) (tr_arpDiv t) (tr_instrDiv t) (tr_effDiv t) (tr_waveform t) (tr_duty t) (tr_samplePitch t) (tr_master t) (tr_volume t) (tr_panning t) (tr_curNote t) (tr_note t) (tr_pitch t) (tr_tremolo t) (tr_tremoloDelta t) (tr_tremoloSteps t) (tr_vibrato t) (tr_vibratoDelta t) (tr_vibratoSteps t) (tr_arpeggio t) (tr_instr t) (tr_istate t).
Definition t_flags t v := mk_track (tr_unit t) (tr_rate t) (tr_dataId t) v (tr_arpDiv t) (tr_instrDiv t) (tr_effDiv t) (tr_waveform t) (tr_duty t) (tr_samplePitch t) (tr_master t) (tr_volume t) (tr_panning t) (tr_curNote t) (tr_note t) (tr_pitch t) (tr_tremolo t) (tr_tremoloDelta t) (tr_tremoloSteps t) (tr_vibrato t) (tr_vibratoDelta t) (tr_vibratoSteps t) (tr_arpeggio t) (tr_instr t) (tr_istate t).
Definition t_arpDiv t v := mk_track (tr_unit t) (tr_rate t) (tr_dataId t) (tr_flags t) v (tr_instrDiv t) (tr_effDiv t) (tr_waveform t) (tr_duty t) (tr_samplePitch t) (tr_master t) (tr_volume t) (tr_panning t) (tr_curNote t) (tr_note t) (tr_pitch t) (tr_tremolo t) (tr_tremoloDelta t) (tr_tremoloSteps t) (tr_vibrato t) (tr_vibratoDelta t) (tr_vibratoSteps t) (tr_arpeggio t) (tr_instr t) (tr_istate t).
Definition t_instrDiv t v := mk_track (tr_unit t) (tr_rate t) (tr_dataId t) (tr_flags t) (tr_arpDiv t) v (tr_effDiv t) (tr_waveform t) (tr_duty t) (tr_samplePitch t) (tr_master t) (tr_volume t) (tr_panning t) (tr_curNote t) (tr_note t) (tr_pitch t) (tr_tremolo t) (tr_tremoloDelta t) (tr_tremoloSteps t) (tr_vibrato t) (tr_vibratoDelta t) (tr_vibratoSteps t) (tr_arpeggio t) (tr_instr t) (tr_istate t).
Definition t_effDiv t v := mk_track (tr_unit t) (tr_rate t) (tr_dataId t) (tr_flags t) (tr_arpDiv t) (tr_instrDiv t) v (tr_waveform t) (tr_duty t) (tr_samplePitch t) (tr_master t) (tr_volume t) (tr_panning t) (tr_curNote t) (tr_note t) (tr_pitch t) (tr_tremolo t) (tr_tremoloDelta t) (tr_tremoloSteps t) (tr_vibrato t) (tr_vibratoDelta t) (tr_vibratoSteps t) (tr_arpeggio t) (tr_instr t) (tr_istate t).
Definition t_waveform t v := mk_track (tr_unit t) (tr_rate t) (tr_dataId t) (tr_flags t) (tr_arpDiv t) (tr_instrDiv t) (tr_effDiv t) v (tr_duty t) (tr_samplePitch t) (tr_master t) (tr_volume t) (tr_panning t) (tr_curNote t) (tr_note t) (tr_pitch t) (tr_tremolo t) (tr_tremoloDelta t) (tr_tremoloSteps t) (tr_vibrato t) (tr_vibratoDelta t) (tr_vibratoSteps t) (tr_arpeggio t) (tr_instr t) (tr_istate t).
Definition t_duty t v := mk_track (tr_unit t) (tr_rate t) (tr_dataId t) (tr_flags t) (tr_arpDiv t) (tr_instrDiv t) (tr_effDiv t) (tr_waveform t) v (tr_samplePitch t) (tr_master t) (tr_volume t) (tr_panning t) (tr_curNote t) (tr_note t) (tr_pitch t) (tr_tremolo t) (tr_tremoloDelta t) (tr_tremoloSteps t) (tr_vibrato t) (tr_vibratoDelta t) (tr_vibratoSteps t) (tr_arpeggio t) (tr_instr t) (tr_istate t).
Definition t_samplePitch t v := mk_track (tr_unit t) (tr_rate t) (tr_dataId t) (tr_flags t) (tr_arpDiv t) (tr_instrDiv t) (tr_effDiv t) (tr_waveform t) (tr_duty t) v (tr_master t) (tr_volume t) (tr_panning t) (tr_curNote t) (tr_note t) (tr_pitch t) (tr_tremolo t) (tr_tremoloDelta t) (tr_tremoloSteps t) (tr_vibrato t) (tr_vibratoDelta t) (tr_vibratoSteps t) (tr_arpeggio t) (tr_instr t) (tr_istate t).
Definition t_master t v := mk_track (tr_unit t) (tr_rate t) (tr_dataId t) (tr_flags t) (tr_arpDiv t) (tr_instrDiv t) (tr_effDiv t) (tr_waveform t) (tr_duty t) (tr_samplePitch t) v (tr_volume t) (tr_panning t) (tr_curNote t) (tr_note t) (tr_pitch t) (tr_tremolo t) (tr_tremoloDelta t) (tr_tremoloSteps t) (tr_vibrato t) (tr_vibratoDelta t) (tr_vibratoSteps t) (tr_arpeggio t) (tr_instr t) (tr_istate t).
Definition t_volume t v := mk_track (tr_unit t) (tr_rate t) (tr_dataId t) (tr_flags t) (tr_arpDiv t) (tr_instrDiv t) (tr_effDiv t) (tr_waveform t) (tr_duty t) (tr_samplePitch t) (tr_master t) v (tr_panning t) (tr_curNote t) (tr_note t) (tr_pitch t) (tr_tremolo t) (tr_tremoloDelta t) (tr_tremoloSteps t) (tr_vibrato t) (tr_vibratoDelta t) (tr_vibratoSteps t) (tr_arpeggio t) (tr_instr t) (tr_istate t).
Definition t_panning t v := mk_track (tr_unit t) (tr_rate t) (tr_dataId t) (tr_flags t) (tr_arpDiv t) (tr_instrDiv t) (tr_effDiv t) (tr_waveform t) (tr_duty t) (tr_samplePitch t) (tr_master t) (tr_volume t) v (tr_curNote t) (tr_note t) (tr_pitch t) (tr_tremolo t) (tr_tremoloDelta t) (tr_tremoloSteps t) (tr_vibrato t) (tr_vibratoDelta t) (tr_vibratoSteps t) (tr_arpeggio t) (tr_instr t) (tr_istate t).
Definition t_curNote t v := mk_track (tr_unit t) (tr_rate t) (tr_dataId t) (tr_flags t) (tr_arpDiv t) (tr_instrDiv t) (tr_effDiv t) (tr_waveform t) (tr_duty t) (tr_samplePitch t) (tr_master t) (tr_volume t) (tr_panning t) v (tr_note t) (tr_pitch t) (tr_tremolo t) (tr_tremoloDelta t) (tr_tremoloSteps t) (tr_vibrato t) (tr_vibratoDelta t) (tr_vibratoSteps t) (tr_arpeggio t) (tr_instr t) (tr_istate t).
Definition t_note t v := mk_track (tr_unit t) (tr_rate t) (tr_dataId t) (tr_flags t) (tr_arpDiv t) (tr_instrDiv t) (tr_effDiv t) (tr_waveform t) (tr_duty t) (tr_samplePitch t) (tr_master t) (tr_volume t) (tr_panning t) (tr_curNote t) v (tr_pitch t) (tr_tremolo t) (tr_tremoloDelta t) (tr_tremoloSteps t) (tr_vibrato t) (tr_vibratoDelta t) (tr_vibratoSteps t) (tr_arpeggio t) (tr_instr t) (tr_istate t).
Definition t_pitch t v := mk_track (tr_unit t) (tr_rate t) (tr_dataId t) (tr_flags t) (tr_arpDiv t) (tr_instrDiv t) (tr_effDiv t) (tr_waveform t) (tr_duty t) (tr_samplePitch t) (tr_master t) (tr_volume t) (tr_panning t) (tr_curNote t) (tr_note t) v (tr_tremolo t) (tr_tremoloDelta t) (tr_tremoloSteps t) (tr_vibrato t) (tr_vibratoDelta t) (tr_vibratoSteps t) (tr_arpeggio t) (tr_instr t) (tr_istate t).
Definition t_tremolo t v := mk_track (tr_unit t) (tr_rate t) (tr_dataId t) (tr_flags t) (tr_arpDiv t) (tr_instrDiv t) (tr_effDiv t) (tr_waveform t) (tr_duty t) (tr_samplePitch t) (tr_master t) (tr_volume t) (tr_panning t) (tr_curNote t) (tr_note t) (tr_pitch t) v (tr_tremoloDelta t) (tr_tremoloSteps t) (tr_vibrato t) (tr_vibratoDelta t) (tr_vibratoSteps t) (tr_arpeggio t) (tr_instr t) (tr_istate t).
Definition t_tremoloDelta t v := mk_track (tr_unit t) (tr_rate t) (tr_dataId t) (tr_flags t) (tr_arpDiv t) (tr_instrDiv t) (tr_effDiv t) (tr_waveform t) (tr_duty t) (tr_samplePitch t) (tr_master t) (tr_volume t) (tr_panning t) (tr_curNote t) (tr_note t) (tr_pitch t) (tr_tremolo t) v (tr_tremoloSteps t) (tr_vibrato t) (tr_vibratoDelta t) (tr_vibratoSteps t) (tr_arpeggio t) (tr_instr t) (tr_istate t).
Definition t_tremoloSteps t v := mk_track (tr_unit t) (tr_rate t) (tr_dataId t) (tr_flags t) (tr_arpDiv t) (tr_instrDiv t) (tr_effDiv t) (tr_waveform t) (tr_duty t) (tr_samplePitch t) (tr_master t) (tr_volume t) (tr_panning t) (tr_curNote t) (tr_note t) (tr_pitch t) (tr_tremolo t) (tr_tremoloDelta t) v (tr_vibrato t) (tr_vibratoDelta t) (tr_vibratoSteps t) (tr_arpeggio t) (tr_instr t) (tr_istate t).
Definition t_vibrato t v := mk_track (tr_unit t) (tr_rate t) (tr_dataId t) (tr_flags t) (tr_arpDiv t) (tr_instrDiv t) (tr_effDiv t) (tr_waveform t) (tr_duty t) (tr_samplePitch t) (tr_master t) (tr_volume t) (tr_panning t) (tr_curNote t) (tr_note t) (tr_pitch t) (tr_tremolo t) (tr_tremoloDelta t) (tr_tremoloSteps t) v (tr_vibratoDelta t) (tr_vibratoSteps t) (tr_arpeggio t) (tr_instr t) (tr_istate t).
Definition t_vibratoDelta t v := mk_track (tr_unit t) (tr_rate t) (tr_dataId t) (tr_flags t) (tr_arpDiv t) (tr_instrDiv t) (tr_effDiv t) (tr_waveform t) (tr_duty t) (tr_samplePitch t) (tr_master t) (tr_volume t) (tr_panning t) (tr_curNote t) (tr_note t) (tr_pitch t) (tr_tremolo t) (tr_tremoloDelta t) (tr_tremoloSteps t) (tr_vibrato t) v (tr_vibratoSteps t) (tr_arpeggio t) (tr_instr t) (tr_istate t).
Definition t_vibratoSteps t v := mk_track (tr_unit t) (tr_rate t) (tr_dataId t) (tr_flags t) (tr_arpDiv t) (tr_instrDiv t) (tr_effDiv t) (tr_waveform t) (tr_duty t) (tr_samplePitch t) (tr_master t) (tr_volume t) (tr_panning t) (tr_curNote t) (tr_note t) (tr_pitch t) (tr_tremolo t) (tr_tremoloDelta t) (tr_tremoloSteps t) (tr_vibrato t) (tr_vibratoDelta t) v (tr_arpeggio t) (tr_instr t) (tr_istate t).
Definition t_arpeggio t v := mk_track (tr_unit t) (tr_rate t) (tr_dataId t) (tr_flags t) (tr_arpDiv t) (tr_instrDiv t) (tr_effDiv t) (tr_waveform t) (tr_duty t) (tr_samplePitch t) (tr_master t) (tr_volume t) (tr_panning t) (tr_curNote t) (tr_note t) (tr_pitch t) (tr_tremolo t) (tr_tremoloDelta t) (tr_tremoloSteps t) (tr_vibrato t) (tr_vibratoDelta t) (tr_vibratoSteps t) v (tr_instr t) (tr_istate t).
Definition t_instr t v := mk_track (tr_unit t) (tr_rate t) (tr_dataId t) (tr_flags t) (tr_arpDiv t) (tr_instrDiv t) (tr_effDiv t) (tr_waveform t) (tr_duty t) (tr_samplePitch t) (tr_master t) (tr_volume t) (tr_panning t) (tr_curNote t) (tr_note t) (tr_pitch t) (tr_tremolo t) (tr_tremoloDelta t) (tr_tremoloSteps t) (tr_vibrato t) (tr_vibratoDelta t) (tr_vibratoSteps t) (tr_arpeggio t) v (tr_istate t).
Definition t_istate t v := mk_track (tr_unit t) (tr_rate t) (tr_dataId t) (tr_flags t) (tr_arpDiv t) (tr_instrDiv t) (tr_effDiv t) (tr_waveform t) (tr_duty t) (tr_samplePitch t) (tr_master t) (tr_volume t) (tr_panning t) (tr_curNote t) (tr_note t) (tr_pitch t) (tr_tremolo t) (tr_tremoloDelta t) (tr_tremoloSteps t) (tr_vibrato t) (tr_vibratoDelta t) (tr_vibratoSteps t) (tr_arpeggio t) (tr_instr t) v.

(** ** Flags *)

Definition has (t : track) (k : tflag) : bool := fget (tr_flags t) k.
Definition put (t : track) (k : tflag) (b : bool) : track := t_flags t (fset (tr_flags t) k b).

(** Calls of unit functions whose return code is dropped. *)
Definition unit_attr (t : track) (attr value : Z) : res track :=
  let* (u, _) := BKUnitSetAttr (tr_unit t) attr value in Ok (t_unit t u).

(** Value of a slot of the instrument state. *)
Definition slot_value (t : track) (slot : Z) : res Z :=
  let* st := aget (is_states (tr_istate t)) slot in Ok (st_value st).
(** [states [slot].sequence]. *)
Definition slot_sequence (t : track) (slot : Z) : option sequence :=
  match tr_instr t with
  | None => None
  | Some (_, instr) => nth (Z.to_nat slot) (in_sequences instr) None
  end.

(** ** Unit *)

(** [BKDividerStateTick], lines 69-81. *)
Definition BKDividerStateTick (d : dstate) : res (dstate * bool) :=
  let '(counter, tick) := if ds_counter d =? 0 then (ds_divider d, true) else (ds_counter d, false) in
  let* counter := chk32 (counter - 1) in
  Ok (mk_dstate (ds_divider d) counter, tick).

(** [BKTrackUpdateUnitVolume], lines 83-130: the volume before panning and the panning ... *)
Definition track_levels (t : track) : res (Z * Z) :=
  let* volume := BKSlideStateGetValue (tr_volume t) in
  let volume := if has t FIgnore && negb (volume =? 0) then BK_MAX_VOLUME else volume in
  let* panning := BKSlideStateGetValue (tr_panning t) in
  let* (volume, panning) :=
    (if has t FInstr then
       let* value := slot_value t BK_SEQUENCE_VOLUME in
       let* volume := (if negb (has t FIgnore) || (value =? 0)
                       then let* m := chk32 (volume * value) in Ok (Z.shiftr m BK_VOLUME_SHIFT)
                       else Ok volume) in
       let* pan := slot_value t BK_SEQUENCE_PANNING in
       let* panning := chk32 (panning + pan) in
       Ok (volume, panning)
     else Ok (volume, panning)) in
  let* volume :=
    (if has t FTremolo && negb (has t FIgnore) then
       let* tremolo := BKIntervalStateGetValue (tr_tremolo t) in
       let* a := abs32 tremolo in
       let* tremolo := chk32 (BK_MAX_VOLUME - a) in
       let* m := chk32 (volume * tremolo) in
       Ok (Z.shiftr m BK_VOLUME_SHIFT)
     else Ok volume) in
  let volume := BKClamp volume 0 BK_MAX_VOLUME in
  let* m := chk32 (volume * tr_master t) in
  Ok (Z.shiftr m BK_VOLUME_SHIFT, panning).
(** ... and what is passed to the unit. *)
Definition BKTrackUpdateUnitVolume (t : track) : res track :=
  let* (volume, panning) := track_levels t in
  if negb (panning =? 0) && has t FPan then
    let panning := BKClamp panning (- BK_MAX_VOLUME) BK_MAX_VOLUME in
    let* volume0 := (if panning >? 0 then
                       let* m := chk32 ((BK_MAX_VOLUME - panning) * volume) in Ok (Z.shiftr m BK_VOLUME_SHIFT)
                     else Ok volume) in
    let* volume1 := (if panning <? 0 then
                       let* m := chk32 ((BK_MAX_VOLUME + panning) * volume) in Ok (Z.shiftr m BK_VOLUME_SHIFT)
                     else Ok volume) in
    let* t := unit_attr t BK_VOLUME_0 volume0 in
    unit_attr t (BK_VOLUME_0 + 1) volume1
  else unit_attr t BK_VOLUME volume.

(** The note that is played, lines 140-151. *)
Definition track_note (t : track) : res Z :=
  let* note := BKSlideStateGetValue (tr_note t) in
  let* note := (if has t FArp then chk32 (note + ar_delta (tr_arpeggio t)) else Ok note) in
  let* note := (if has t FVibrato then let* v := BKIntervalStateGetValue (tr_vibrato t) in chk32 (note + v)
                else Ok note) in
  let* note := (if has t FInstr then let* v := slot_value t BK_SEQUENCE_PITCH in chk32 (note + v)
                else Ok note) in
  chk32 (note + tr_pitch t).

(** [BKTrackUpdateUnitNote], lines 132-163.  The period is divided as unsigned number. *)
Definition BKTrackUpdateUnitNote (t : track) : res track :=
  match un_ctx (tr_unit t) with
  | None => Ok t
  | Some _ =>
    let* note := track_note t in
    if negb (tr_waveform t =? BK_SAMPLE) then
      let* period := BKTonePeriodLookup note (tr_rate t) in
      let count := BKMin (ph_count (un_phase (tr_unit t))) BK_WAVE_MAX_LENGTH in
      if count =? 0 then Err EDiv0
      else unit_attr t BK_PERIOD (s32 (u32 (s32 period) / count))
    else
      let* note := chk32 (note + tr_samplePitch t) in
      let* period := BKLog2PeriodLookup note in
      unit_attr t BK_SAMPLE_PERIOD (s32 period)
  end.

(** [BKTrackUpdateUnitDutyCycle], lines 165-175. *)
Definition BKTrackUpdateUnitDutyCycle (t : track) : res track :=
  let* duty := (if has t FInstr then
                  let* v := slot_value t BK_SEQUENCE_DUTY_CYCLE in
                  Ok (if negb (v =? 0) then v else tr_duty t)
                else Ok (tr_duty t)) in
  unit_attr t BK_DUTY_CYCLE duty.

(** [BKTrackUpdateUnit], lines 177-193. *)
Definition BKTrackUpdateUnit (t : track) : res track :=
  let* t := (if has t FVolume then let* t := BKTrackUpdateUnitVolume t in Ok (put t FVolume false) else Ok t) in
  let* t := (if has t FNote then let* t := BKTrackUpdateUnitNote t in Ok (put t FNote false) else Ok t) in
  if has t FDuty then let* t := BKTrackUpdateUnitDutyCycle t in Ok (put t FDuty false) else Ok t.

(** [BKTrackUpdateIgnoreVolume], lines 195-202. *)
Definition BKTrackUpdateIgnoreVolume (t : track) : track :=
  put (put t FVolume true) FIgnore ((tr_waveform t =? BK_TRIANGLE) && has t FTri).

(** ** Arpeggio *)

(** [memcpy] of [n] integers to the front of a list. *)
Fixpoint copy_ints (n : nat) (dst src : list Z) : res (list Z) :=
  match n with
  | O => Ok dst
  | S n =>
    match dst, src with
    | _ :: dst, v :: src => let* l := copy_ints n dst src in Ok (v :: l)
    | _, _ => Err EBounds
    end
  end.

(** [BKTrackArpeggioSetNotes], lines 204-218.  The size is converted to [size_t]: a
    negative count is larger than any object. *)
Definition BKTrackArpeggioSetNotes (t : track) (arpeggio : list Z) (count : Z) : res track :=
  let a := tr_arpeggio t in
  let offset := if ar_offset a >=? count then 0 else ar_offset a in
  let* notes := (if count <? 0 then Err EBounds else copy_ints (Z.to_nat count) (ar_notes a) arpeggio) in
  Ok (put (put (t_arpeggio t (mk_arp offset (ar_delta a) count notes)) FArp (count >? 0)) FNote true).

(** [BKTrackArpeggioTick], lines 220-231. *)
Definition BKTrackArpeggioTick (t : track) : res track :=
  let a := tr_arpeggio t in
  let* delta := aget (ar_notes a) (ar_offset a) in
  let* offset := chk32 (ar_offset a + 1) in
  let offset := if offset >=? ar_count a then 0 else offset in
  Ok (put (t_arpeggio t (mk_arp offset delta (ar_count a) (ar_notes a))) FNote true).

(** ** Instrument *)

(** [BKTrackInstrumentUpdateFlags], lines 239-264. *)
Definition some_seq (t : track) (slot : Z) : bool := match slot_sequence t slot with Some _ => true | None => false end.
Definition BKTrackInstrumentUpdateFlags (t : track) (all : bool) : track :=
  if all then put (put (put t FVolume true) FNote true) FDuty true
  else
    let t := if some_seq t BK_SEQUENCE_VOLUME then put t FVolume true else t in
    let t := if some_seq t BK_SEQUENCE_PANNING then put t FVolume true else t in
    let t := if some_seq t BK_SEQUENCE_PITCH then put t FNote true else t in
    if some_seq t BK_SEQUENCE_DUTY_CYCLE then put t FDuty true else t.

(** [BKInstrumentStateSetPhase] on the state of the track, without the callback, and
    whether it is called. *)
Definition set_phase_plain (fuel : nat) (t : track) (phase : Z) : res (track * bool) :=
  match tr_instr t with
  | None => Ok (t, false)
  | Some (_, instr) =>
    let* s := BKInstrumentStateSetPhase fuel instr (tr_istate t) phase in
    Ok (t_istate t s, negb (is_muted s =? is_muted (tr_istate t)))
  end.

(** [BKTrackSetNote] for [BK_NOTE_MUTE], lines 631-644, with [BKTrackInstrumentMute], lines
    581-585; [set_phase] is [BKInstrumentStateSetPhase]. *)
Definition set_note_mute (set_phase : track -> Z -> res track) (t : track) : res track :=
  let t := t_curNote t (-1) in
  let t := t_note t (BKSlideStateHalt (tr_note t) true) in
  let* t := (if has t FInstr then
               let* t := set_phase t BK_SEQUENCE_PHASE_MUTE in
               Ok (BKTrackInstrumentUpdateFlags t false)
             else Ok t) in
  let* t := unit_attr t BK_MUTE 1 in
  let* t := unit_attr t BK_FLAG_RELEASE 0 in
  Ok (put t FNote true).

(** [BKInstrumentStateSetPhase] calls [BKTrackInstrStateCallback] (lines 44-63) with
    [BK_INSTR_STATE_EVENT_MUTE] when the phase becomes [BK_SEQUENCE_PHASE_MUTE], which mutes
    the note and so sets that phase again; then the phase is not changed and the callback not
    called.  A deeper nesting is not modelled ([Err EFuel]; it never happens). *)
Definition set_phase_inner (fuel : nat) (t : track) (phase : Z) : res track :=
  let* (t, called) := set_phase_plain fuel t phase in
  if called : bool then Err EFuel else Ok t.
Definition mute_event (fuel : nat) (t : track) : res track := set_note_mute (set_phase_inner fuel) t.
Definition track_set_phase (fuel : nat) (t : track) (phase : Z) : res track :=
  let* (t, called) := set_phase_plain fuel t phase in
  if called : bool then mute_event fuel t else Ok t.

(** [BKInstrumentStateTick], BKInstrument.c lines 319-332, on the state of the track: [n]
    slots from [i] on. *)
Fixpoint track_tick_loop (fuel : nat) (n : nat) (i : Z) (t : track) (level : Z) : res track :=
  match n with
  | O => Ok t
  | S n =>
    let s := tr_istate t in
    let* st := aget (is_states s) i in
    let* (st, r) := BKSequenceStateStep fuel (slot_sequence t i) st level in
    let* sts := aset (is_states s) i st in
    let* t :=
      (if r =? BK_SEQUENCE_RETURN_FINISH then
         let t := t_istate t (mk_istate (is_phase s) (is_numActive s - 1) sts (is_muted s)) in
         if is_numActive s - 1 =? 0 then track_set_phase fuel t BK_SEQUENCE_PHASE_MUTE else Ok t
       else Ok (t_istate t (mk_istate (is_phase s) (is_numActive s) sts (is_muted s)))) in
    track_tick_loop fuel n (i + 1) t level
  end.

(** [BKTrackInstrumentTick], lines 233-237. *)
Definition BKTrackInstrumentTick (fuel : nat) (t : track) (level : Z) : res track :=
  match tr_instr t with
  | None => Err ENull
  | Some (_, instr) =>
    let* t := track_tick_loop fuel (Z.to_nat (in_numSequences instr)) 0 t level in
    Ok (BKTrackInstrumentUpdateFlags t false)
  end.

(** [BKTrackSetInstrumentInitValues], lines 557-563. *)
Definition BKTrackSetInstrumentInitValues (t : track) : res track :=
  if has t FInstr then
    match tr_instr t with
    | None => Err ENull
    | Some _ =>
      match slot_sequence t BK_SEQUENCE_DUTY_CYCLE with
      | None => Ok t
      | Some sq =>
        let s := tr_istate t in
        let* st := aget (is_states s) BK_SEQUENCE_DUTY_CYCLE in
        let* st := BKSequenceStateSetValue (Some sq) st (tr_duty t) in
        let* sts := aset (is_states s) BK_SEQUENCE_DUTY_CYCLE st in
        Ok (t_istate t (mk_istate (is_phase s) (is_numActive s) sts (is_muted s)))
      end
    end
  else Ok t.

Definition zero_counter (d : dstate) : dstate := mk_dstate (ds_divider d) 0.

(** [BKTrackInstrumentAttack], lines 565-573. *)
Definition BKTrackInstrumentAttack (fuel : nat) (t : track) : res track :=
  let* t := BKTrackSetInstrumentInitValues t in
  let t := t_instrDiv t (zero_counter (tr_instrDiv t)) in
  let* t := track_set_phase fuel t BK_SEQUENCE_PHASE_ATTACK in
  Ok (BKTrackInstrumentUpdateFlags t false).

(** [BKTrackInstrumentRelease], lines 575-579, and [BKTrackInstrumentMute], lines 581-585. *)
Definition BKTrackInstrumentRelease (fuel : nat) (t : track) : res track :=
  let* t := track_set_phase fuel t BK_SEQUENCE_PHASE_RELEASE in
  Ok (BKTrackInstrumentUpdateFlags t false).
Definition BKTrackInstrumentMute (fuel : nat) (t : track) : res track :=
  let* t := track_set_phase fuel t BK_SEQUENCE_PHASE_MUTE in
  Ok (BKTrackInstrumentUpdateFlags t false).

(** ** Notes *)

(** [BKTrackSetNote], lines 587-645. *)
Definition BKTrackSetNote (fuel : nat) (t : track) (note : Z) : res track :=
  if note >=? 0 then
    let note := BKClamp note (BK_MIN_NOTE * 2 ^ BK_FINT20_SHIFT) (BK_MAX_NOTE * 2 ^ BK_FINT20_SHIFT) in
    let* sl := BKSlideStateSetValue (tr_note t) note in
    let t := t_note t sl in
    let* t :=
      (if tr_curNote t =? -1 then
         let t := t_note t (BKSlideStateHalt (tr_note t) true) in
         let* t := (if has t FInstr then BKTrackInstrumentAttack fuel t else Ok t) in
         let a := tr_arpeggio t in
         Ok (t_arpeggio t (mk_arp 0 (ar_delta a) (ar_count a) (ar_notes a)))
       else Ok t) in
    let* t := (if (tr_waveform t =? BK_SAMPLE) && (tr_curNote t =? -1) then unit_attr t BK_PHASE (-1) else Ok t) in
    let t := t_curNote t note in
    let* t := unit_attr t BK_MUTE 0 in
    let* t := unit_attr t BK_FLAG_RELEASE 0 in
    Ok (put t FNote true)
  else if note =? BK_NOTE_RELEASE then
    let t := t_curNote t (-1) in
    let* t :=
      (if has t FInstr then
         let* t := BKTrackInstrumentRelease fuel t in
         unit_attr t BK_FLAG_RELEASE 1
       else if un_sustain (tr_unit t) then unit_attr t BK_FLAG_RELEASE 1
       else
         let t := t_note t (BKSlideStateHalt (tr_note t) false) in
         unit_attr t BK_MUTE 1) in
    Ok (put t FNote true)
  else if note =? BK_NOTE_MUTE then set_note_mute (track_set_phase fuel) t
  else Ok (put t FNote true).

(** [BKInstrumentStateSetInstrument], BKInstrument.c lines 280-298, on the state of the
    track.  Instruments are not locked. *)
Definition state_set_instrument (fuel : nat) (t : track) (instr : option (Z * instrument)) : res track :=
  let old := match tr_instr t with Some (_, i) => in_sequences i | None => repeat None BK_MAX_SEQUENCES end in
  match instr with
  | Some (id, i) =>
    let* s := BKInstrumentStateSetInstrument fuel old (in_sequences i) (tr_istate t) in
    Ok (t_istate (t_instr t (Some (id, i))) s)
  | None => Ok (t_instr t None)
  end.

(** [BKTrackSetInstrument], lines 647-674. *)
Definition same_instr (a b : option (Z * instrument)) : bool :=
  match a, b with
  | Some (x, _), Some (y, _) => x =? y
  | None, None => true
  | _, _ => false
  end.
Definition BKTrackSetInstrument (fuel : nat) (t : track) (instr : option (Z * instrument)) : res track :=
  let* t :=
    (if negb (same_instr instr (tr_instr t)) then
       let* t := state_set_instrument fuel t instr in
       match instr with
       | Some _ =>
         let t := put t FInstr true in
         let t := t_instrDiv t (zero_counter (tr_instrDiv t)) in
         let* t := BKTrackSetInstrumentInitValues t in
         if tr_curNote t =? -1 then BKTrackInstrumentMute fuel t else BKTrackInstrumentAttack fuel t
       | None =>
         let t := put t FInstr false in
         if tr_curNote t =? -1 then BKTrackSetNote fuel t BK_NOTE_MUTE else Ok t
       end
     else Ok t) in
  Ok (BKTrackInstrumentUpdateFlags t true).

(** ** Ticks *)

(** [BKTrackEffectTick], lines 266-309. *)
Definition effect_interval (delta steps : slide) (iv : interval) : res (slide * slide * interval) :=
  let* (delta, steps, iv) :=
    (if negb (sl_steps delta =? 0) then
       let* delta := BKSlideStateStep delta in
       let* steps := BKSlideStateStep steps in
       let* d := BKSlideStateGetValue delta in
       let* s := BKSlideStateGetValue steps in
       let* iv := BKIntervalStateSetDeltaAndSteps iv d s in
       Ok (delta, steps, iv)
     else Ok (delta, steps, iv)) in
  let* iv := BKIntervalStateStep iv in
  Ok (delta, steps, iv).
Definition BKTrackEffectTick (t : track) : res track :=
  let* t := (if has t FPorta then let* s := BKSlideStateStep (tr_note t) in Ok (t_note t s) else Ok t) in
  let* t := (if has t FVolSlide then let* s := BKSlideStateStep (tr_volume t) in Ok (t_volume t s) else Ok t) in
  let* t := (if has t FPanSlide then let* s := BKSlideStateStep (tr_panning t) in Ok (t_panning t s) else Ok t) in
  let* t :=
    (if has t FTremolo then
       let* (d, s, iv) := effect_interval (tr_tremoloDelta t) (tr_tremoloSteps t) (tr_tremolo t) in
       Ok (t_tremolo (t_tremoloSteps (t_tremoloDelta t d) s) iv)
     else Ok t) in
  if has t FVibrato then
    let* (d, s, iv) := effect_interval (tr_vibratoDelta t) (tr_vibratoSteps t) (tr_vibrato t) in
    Ok (t_vibrato (t_vibratoSteps (t_vibratoDelta t d) s) iv)
  else Ok t.

(** [BKTrackEffectUpdateFlags], lines 311-332. *)
Definition BKTrackEffectUpdateFlags (t : track) : track :=
  let t := if has t FPorta then put t FNote true else t in
  let t := if has t FVolSlide then put t FVolume true else t in
  let t := if has t FPanSlide then put t FVolume true else t in
  let t := if has t FTremolo then put t FVolume true else t in
  if has t FVibrato then put t FNote true else t.

(** [BKTrackTick], lines 334-367. *)
Definition any_effect (t : track) : bool :=
  has t FPorta || has t FVolSlide || has t FPanSlide || has t FTremolo || has t FVibrato.
Definition BKTrackTick (fuel : nat) (t : track) : res track :=
  let t := BKTrackEffectUpdateFlags t in
  let* t :=
    (if has t FArp then
       let* (d, tick) := BKDividerStateTick (tr_arpDiv t) in
       let t := t_arpDiv t d in
       if tick : bool then BKTrackArpeggioTick t else Ok t
     else Ok t) in
  let* t :=
    (if has t FInstr then
       let* (d, tick) := BKDividerStateTick (tr_instrDiv t) in
       BKTrackInstrumentTick fuel (t_instrDiv t d) (if tick : bool then 1 else 0)
     else Ok t) in
  let* t := BKTrackUpdateUnit t in
  if any_effect t then
    let* (d, tick) := BKDividerStateTick (tr_effDiv t) in
    let t := t_effDiv t d in
    if tick : bool then BKTrackEffectTick t else Ok t
  else Ok t.

(** ** Effects *)

(** [memcpy] of at most 3 integers and [memset] of the rest, lines 850-859; the memory
    passed has to be as large as claimed. *)
Definition effect_values (mem : option (list Z)) (size : Z) : res (list Z) :=
  match mem with
  | None => Ok [0; 0; 0]
  | Some l => copy_ints (Z.to_nat (BKMin size 12 / 4)) [0; 0; 0] l
  end.

(** [BKTrackSetEffect], lines 844-930. *)
Definition effect_flag (effect : Z) : option tflag :=
  if effect =? BK_EFFECT_VOLUME_SLIDE then Some FVolSlide
  else if effect =? BK_EFFECT_PANNING_SLIDE then Some FPanSlide
  else if effect =? BK_EFFECT_PORTAMENTO then Some FPorta
  else if effect =? BK_EFFECT_TREMOLO then Some FTremolo
  else if effect =? BK_EFFECT_VIBRATO then Some FVibrato
  else None.
Definition set_interval_effect (delta steps : slide) (iv : interval) (d s n : Z) : res (slide * slide * interval) :=
  let* delta := BKSlideStateSetValueAndSteps delta d n in
  let* steps := BKSlideStateSetValueAndSteps steps s n in
  let* iv := (if n =? 0 then BKIntervalStateSetDeltaAndSteps iv d s else Ok iv) in
  Ok (delta, steps, iv).
Definition BKTrackSetEffect (t : track) (effect : Z) (mem : option (list Z)) (size : Z) : res (track * Z) :=
  let* values := effect_values mem size in
  let v0 := nth 0 values 0 in
  let v1 := nth 1 values 0 in
  let v2 := nth 2 values 0 in
  let steps := BKClamp v0 0 BK_TRACK_EFFECT_MAX_STEPS in
  let slideSteps := BKClamp v2 0 BK_TRACK_EFFECT_MAX_STEPS in
  match effect_flag effect with
  | None => Ok (t, BK_INVALID_ATTRIBUTE)
  | Some k =>
    let* t :=
      match k with
      | FVolSlide =>
        let* s := BKSlideStateSetSteps (tr_volume t) steps in Ok (put (t_volume t s) FVolume true)
      | FPorta =>
        let* s := BKSlideStateSetSteps (tr_note t) steps in Ok (put (t_note t s) FNote true)
      | FPanSlide =>
        let* s := BKSlideStateSetSteps (tr_panning t) steps in Ok (put (t_panning t s) FVolume true)
      | FTremolo =>
        let delta := BKClamp v1 0 BK_MAX_VOLUME in
        let* (d, s, iv) := set_interval_effect (tr_tremoloDelta t) (tr_tremoloSteps t) (tr_tremolo t) delta steps slideSteps in
        Ok (put (t_tremolo (t_tremoloSteps (t_tremoloDelta t d) s) iv) FVolume true)
      | _ =>
        let* (d, s, iv) := set_interval_effect (tr_vibratoDelta t) (tr_vibratoSteps t) (tr_vibrato t) v1 steps slideSteps in
        Ok (put (t_vibrato (t_vibratoSteps (t_vibratoDelta t d) s) iv) FNote true)
      end in
    Ok (put t k (negb (v0 =? 0)), 0)
  end.

(** [BKTrackGetEffect], lines 932-977: return code and the integers written, [size / 4] of
    them. *)
Definition BKTrackGetEffect (t : track) (effect size : Z) : Z * list Z :=
  let out (l : list Z) := (0, firstn (Z.to_nat (size / 4)) (l ++ repeat 0 (Z.to_nat (size / 4)))) in
  match effect_flag effect with
  | Some FVolSlide => out [sl_steps (tr_volume t); 0; 0]
  | Some FPorta => out [sl_steps (tr_note t); 0; 0]
  | Some FPanSlide => out [sl_steps (tr_panning t); 0; 0]
  | Some FTremolo => out [sl_endValue (tr_tremoloSteps t); sl_endValue (tr_tremoloDelta t); sl_steps (tr_tremoloDelta t)]
  | Some FVibrato => out [sl_endValue (tr_vibratoSteps t); sl_endValue (tr_vibratoDelta t); sl_steps (tr_vibratoDelta t)]
  | _ => (BK_INVALID_ATTRIBUTE, [])
  end.

(** ** Attributes *)

(** [BKTrackSetVolume], lines 539-546, and [BKTrackSetPanning], lines 548-555. *)
Definition BKTrackSetVolume (t : track) (volume : Z) : res track :=
  let* s := BKSlideStateSetValue (tr_volume t) (BKClamp volume 0 BK_MAX_VOLUME) in
  Ok (put (t_volume t s) FVolume true).
Definition BKTrackSetPanning (t : track) (panning : Z) : res track :=
  let* s := BKSlideStateSetValue (tr_panning t) (BKClamp panning (- BK_MAX_VOLUME) BK_MAX_VOLUME) in
  Ok (put (t_panning t s) FVolume true).

(** Pitches, lines 723 and 727. *)
Definition clamp_pitch (value : Z) : Z :=
  BKClamp value (BK_MIN_SAMPLE_TONE * 2 ^ BK_FINT20_SHIFT) (BK_MAX_SAMPLE_TONE * 2 ^ BK_FINT20_SHIFT).

(** [BKTrackSetAttrInt], lines 676-767 (and [BKTrackSetAttr], lines 769-772): the track and
    the return code. *)
Definition BKTrackSetAttr (fuel : nat) (t : track) (attr value : Z) : res (track * Z) :=
  let ok (r : res track) := let* t := r in Ok (t, 0) in
  if attr =? BK_MASTER_VOLUME then Ok (put (t_master t (BKClamp value 0 BK_MAX_VOLUME)) FVolume true, 0)
  else if attr =? BK_VOLUME then ok (BKTrackSetVolume t value)
  else if attr =? BK_PANNING then ok (BKTrackSetPanning t value)
  else if attr =? BK_WAVEFORM then
    let* (u, ret) := BKUnitSetAttr (tr_unit t) BK_WAVEFORM value in
    let t := t_unit t u in
    if ret =? 0 then
      let t := t_waveform t (s32 (un_waveform u)) in
      let* t := BKTrackUpdateUnitNote (BKTrackUpdateIgnoreVolume t) in
      Ok (t, ret)
    else Ok (t, ret)
  else if attr =? BK_DUTY_CYCLE then
    let* (u, ret) := BKUnitSetAttr (tr_unit t) BK_DUTY_CYCLE value in
    let t := t_unit t u in
    let t := if ret =? 0 then t_duty t (s32 (un_duty u)) else t in
    Ok (put t FDuty true, ret)
  else if attr =? BK_NOTE then ok (BKTrackSetNote fuel t value)
  else if attr =? BK_PITCH then Ok (t_pitch t (clamp_pitch value), 0)
  else if attr =? BK_SAMPLE_PITCH then Ok (t_samplePitch t (clamp_pitch value), 0)
  else if attr =? BK_ARPEGGIO_DIVIDER then Ok (t_arpDiv t (mk_dstate value 0), 0)
  else if attr =? BK_EFFECT_DIVIDER then Ok (t_effDiv t (mk_dstate value 0), 0)
  else if attr =? BK_INSTRUMENT_DIVIDER then Ok (t_instrDiv t (mk_dstate value 0), 0)
  else if attr =? BK_TRIANGLE_IGNORES_VOLUME then
    Ok (BKTrackUpdateIgnoreVolume (put t FTri (negb (value =? 0))), 0)
  else if (attr =? BK_EFFECT_VOLUME_SLIDE) || (attr =? BK_EFFECT_PANNING_SLIDE) || (attr =? BK_EFFECT_PORTAMENTO) then
    BKTrackSetEffect t attr (Some [value; 0]) 8
  else
    let* (u, ret) := BKUnitSetAttr (tr_unit t) attr value in
    Ok (t_unit t u, ret).

(** [BKTrackGetAttrInt], lines 774-837 (and [BKTrackGetAttr], lines 839-842): return code and
    value ([None]: not written). *)
Definition BKTrackGetAttr (t : track) (attr : Z) : res (Z * option Z) :=
  let ok v := Ok (0, Some v) in
  if attr =? BK_MASTER_VOLUME then ok (tr_master t)
  else if attr =? BK_VOLUME then ok (Z.shiftr (sl_endValue (tr_volume t)) (sl_valueShift (tr_volume t)))
  else if attr =? BK_PANNING then ok (Z.shiftr (sl_endValue (tr_panning t)) (sl_valueShift (tr_panning t)))
  else if attr =? BK_NOTE then ok (tr_curNote t)
  else if attr =? BK_SAMPLE_PITCH then ok (tr_samplePitch t)
  else if attr =? BK_ARPEGGIO_DIVIDER then ok (ds_divider (tr_arpDiv t))
  else if attr =? BK_EFFECT_DIVIDER then ok (ds_divider (tr_effDiv t))
  else if attr =? BK_INSTRUMENT_DIVIDER then ok (ds_divider (tr_instrDiv t))
  else if attr =? BK_TRIANGLE_IGNORES_VOLUME then ok (if has t FTri then 1 else 0)
  else if (attr =? BK_EFFECT_VOLUME_SLIDE) || (attr =? BK_EFFECT_PANNING_SLIDE) || (attr =? BK_EFFECT_PORTAMENTO) then
    ok (nth 0 (snd (BKTrackGetEffect t attr 8)) 0)
  else BKUnitGetAttr (tr_unit t) attr.

(** What the pointer argument of [BKTrackSetPtrObj] points to: a data object (identity,
    contents and its [samplePitch]), an instrument (identity and sequences), integers, or something for the unit. *)
Inductive tptr :=
| TNull
| TData (id : Z) (d : wdata) (pitch : Z)
| TInstr (id : Z) (sqs : list (option sequence))
| TInts (mem : list Z)
| TUnit (p : uptr).

(** Lines 991-1023. *)
Definition track_set_data (t : track) (attr : Z) (data : option (Z * wdata * Z)) : res (track * Z) :=
  let u := tr_unit t in
  let same := match data, sm_data (un_sample u) with
              | None, None => true
              | Some (id, _, _), Some _ => id =? tr_dataId t
              | _, _ => false
              end in
  let* (t, r) :=
    (if negb (attr =? s32 (un_waveform u)) || negb same then
       let* (u, r) := BKUnitSetPtr u attr (match data with Some (_, d, _) => PData d | None => PNull end) in
       Ok (match data with Some (id, _, _) => if r =? 0 then t_dataId (t_unit t u) id else t_unit t u | None => t_unit t u end, r)
     else Ok (t, 0)) in
  if negb (r =? 0) then Ok (t, r) else
  let t := t_waveform t (s32 (un_waveform (tr_unit t))) in
  let t := BKTrackUpdateIgnoreVolume t in
  let t := t_samplePitch t (match data, sm_data (un_sample (tr_unit t)) with
                            | Some (_, _, pitch), Some _ => pitch
                            | _, _ => 0
                            end) in
  let* t := BKTrackUpdateUnitNote t in
  Ok (t, 0).

(** [BKTrackSetPtrObj], lines 979-1050 ([BKTrackSetPtr], lines 1052-1055, passes the size 0).
    A pointer to an object of another kind than the attribute calls for is not modelled
    ([Err EBounds]); neither is [& arpeggio [1]] for a NULL pointer, which is not used. *)
Definition BKTrackSetPtr (fuel : nat) (t : track) (attr : Z) (ptr : tptr) (size : Z) : res (track * Z) :=
  if attr_type attr =? BK_EFFECT_TYPE then
    match ptr with
    | TNull => BKTrackSetEffect t attr None size
    | TInts mem => BKTrackSetEffect t attr (Some mem) size
    | _ => Err EBounds
    end
  else if (attr =? BK_WAVEFORM) || (attr =? BK_SAMPLE) then
    match ptr with
    | TNull => track_set_data t attr None
    | TData id d pitch => track_set_data t attr (Some (id, d, pitch))
    | _ => Err EBounds
    end
  else if attr =? BK_INSTRUMENT then
    match ptr with
    | TNull => let* t := BKTrackSetInstrument fuel t None in Ok (t, 0)
    | TInstr id sqs => let* t := BKTrackSetInstrument fuel t (Some (id, BKInstrumentUpdateNumSequences sqs)) in Ok (t, 0)
    | _ => Err EBounds
    end
  else if attr =? BK_ARPEGGIO then
    let* (mem, count) :=
      match ptr with
      | TNull => Ok ([], 0)
      | TInts mem => if size =? 0 then Ok (mem, 0)
                     else let* n := aget mem 0 in Ok (mem, s32 (u32 (BKMin n BK_MAX_ARPEGGIO)))
      | _ => Err EBounds
      end in
    let* t := BKTrackArpeggioSetNotes t (tl mem) count in
    Ok (t, 0)
  else
    let* p := match ptr with TNull => Ok PNull | TUnit p => Ok p | _ => Err EBounds end in
    let* (u, r) := BKUnitSetPtr (tr_unit t) attr p in
    Ok (t_unit t u, r).

(** [BKTrackGetPtrObj], lines 1057-1096, for effects, instruments (its identity, 0 for none)
    and arpeggios: return code and the integers written.  Other attributes are forwarded to
    [BKUnitGetPtr]. *)
Definition BKTrackGetPtr (t : track) (attr size : Z) : Z * list Z :=
  if attr_type attr =? BK_EFFECT_TYPE then BKTrackGetEffect t attr size
  else if attr =? BK_INSTRUMENT then (0, [match tr_instr t with Some (id, _) => id | None => 0 end])
  else if attr =? BK_ARPEGGIO then
    (0, ar_count (tr_arpeggio t) :: firstn (Z.to_nat (ar_count (tr_arpeggio t))) (ar_notes (tr_arpeggio t)))
  else (BK_INVALID_ATTRIBUTE, []).

(** ** Life of a track *)

(** [BKTrackClear], lines 460-500. *)
Definition cleared (t : track) : track :=
  mk_track (tr_unit t) (tr_rate t) (tr_dataId t)
    (mk_tflags false false (tf_pan (tr_flags t)) (tf_tri (tr_flags t)) (tf_ignore (tr_flags t))
               false false false false false false false false)
    (mk_dstate BK_DEFAULT_ARPEGGIO_DIVIDER 0) (mk_dstate BK_DEFAULT_INSTR_DIVIDER 0) (mk_dstate BK_DEFAULT_EFFECT_DIVIDER 0)
    0 0 0 0 (BKSlideStateInit BK_MAX_VOLUME) (BKSlideStateInit BK_MAX_VOLUME) 0 (BKSlideStateInit 0) 0
    (BKIntervalStateInit BK_MAX_VOLUME) (BKSlideStateInit BK_MAX_VOLUME) (BKSlideStateInit BK_TRACK_EFFECT_MAX_STEPS)
    (BKIntervalStateInit 0) (BKSlideStateInit 0) (BKSlideStateInit BK_TRACK_EFFECT_MAX_STEPS)
    (mk_arp 0 0 0 (repeat 0 (Z.to_nat BK_MAX_ARPEGGIO)))
    None (mk_istate 0 0 (repeat sstate_zero BK_MAX_SEQUENCES) 0).
Definition BKTrackClear (fuel : nat) (t : track) : res track :=
  let waveform := tr_waveform t in
  let duty := tr_duty t in
  let master := tr_master t in
  let* u := BKUnitClear (tr_unit t) in
  let* t := BKTrackSetInstrument fuel (t_unit t u) None in
  let t := cleared t in
  let* (t, _) := BKTrackSetAttr fuel t BK_VOLUME BK_MAX_VOLUME in
  let* (t, _) := BKTrackSetAttr fuel t BK_MASTER_VOLUME master in
  let* (t, _) := BKTrackSetAttr fuel t BK_WAVEFORM waveform in
  let* (t, _) := BKTrackSetAttr fuel t BK_DUTY_CYCLE duty in
  let* (t, _) := BKTrackSetAttr fuel t BK_NOTE BK_NOTE_MUTE in
  let* (t, _) := BKTrackSetAttr fuel t BK_MUTE 1 in
  Ok t.

(** [BKTrackReset], lines 453-458. *)
Definition BKTrackReset (fuel : nat) (t : track) : res track :=
  let* u := BKUnitReset (tr_unit t) in
  let* (t, _) := BKTrackSetAttr fuel (t_unit t u) BK_DUTY_CYCLE (Z.quot BK_SQUARE_PHASES 4) in
  BKTrackClear fuel t.

(** A track as left by [BKObjectInit] (all members zero). *)
Definition slide0 : slide := mk_slide 0 0 0 0 0 0 0.
Definition interval0 : interval := mk_interval 0 0 0 0 0 0 0 0.
Definition track0 : track :=
  mk_track unit0 0 0 (mk_tflags false false false false false false false false false false false false false)
    (mk_dstate 0 0) (mk_dstate 0 0) (mk_dstate 0 0) 0 0 0 0 slide0 slide0 0 slide0 0
    interval0 slide0 slide0 interval0 slide0 slide0 (mk_arp 0 0 0 (repeat 0 (Z.to_nat BK_MAX_ARPEGGIO)))
    None (mk_istate 0 0 (repeat sstate_zero BK_MAX_SEQUENCES) 0).

(** [BKTrackInitGeneric], lines 381-411 ([BKTrackInit], lines 413-424). *)
Definition BKTrackInit (fuel : nat) (waveform : Z) : res track :=
  let* u := BKUnitInit waveform in
  let t := put (t_unit track0 u) FTri true in
  let* (t, _) := BKTrackSetAttr fuel t BK_WAVEFORM (s32 waveform) in
  BKTrackReset fuel t.

(** [BKTrackAttach], lines 510-529, to a context with these channels, sample rate and time.
    The divider is attached in ClockModel.v. *)
Definition BKTrackAttach (t : track) (numChannels rate deltaTime : Z) : res (track * Z) :=
  let (u, ret) := BKUnitAttach (tr_unit t) numChannels deltaTime in
  let t := t_unit t u in
  if ret =? 0 then
    let t := t_rate t rate in
    let t := if numChannels =? 2 then put t FPan true else t in
    let* t := BKTrackUpdateUnit (put t FVolume true) in
    Ok (t, ret)
  else Ok (t, ret).

(** [BKTrackDetach], lines 531-537. *)
Definition BKTrackDetach (t : track) : track :=
  put (t_unit t (BKUnitDetach (tr_unit t))) FPan false.

(** [BKTrackRun], lines 446-451. *)
Definition BKTrackRun (fuel : nat) (t : track) (endTime : Z) : res (track * list (list (Z * Z))) :=
  let* t := BKTrackUpdateUnit t in
  let* (u, l) := BKUnitRun fuel (tr_unit t) endTime in
  Ok (t_unit t u, l).

(** The data object of the unit has new contents or is disposed of: [BKTrackSampleDataStateCallback],
    lines 369-379, as called by [BKDataResetStates] (BKData.c lines 99-139). *)
Definition track_data_event (t : track) (event : option wdata) : res (track * Z) :=
  let u := tr_unit t in
  match sm_data (un_sample u) with
  | None => Ok (t, 0)
  | Some _ =>
    let u := match event with Some d => unit_data_state u (Some d) | None => u end in
    let* (u, r) := BKUnitSampleDataStateCallback (match event with Some _ => false | None => true end) u in
    let t := t_unit t u in
    let* t := (if r =? 0 then BKTrackUpdateUnitNote t else Ok t) in
    let drop := match event with Some _ => r <? 0 | None => true end in
    Ok (if drop then t_unit t (unit_data_state (tr_unit t) None) else t, r)
  end.

(** A slot of the instrument of the track is set: [BKInstrumentSetSequenceValues],
    BKInstrument.c lines 169-205, with the callback of this track. *)
Definition track_instr_set (fuel : nat) (t : track) (slot : Z) (v : values) (so sl : Z) : res (track * Z) :=
  match tr_instr t with
  | None => Ok (t, 0)
  | Some (id, instr) =>
    let* (instr, s, code) := BKInstrumentSetSequenceValues fuel instr (tr_istate t) slot v so sl in
    if negb (code =? 0) then Ok (t, code) else
    let called := negb (is_muted s =? is_muted (tr_istate t)) in
    let t := t_istate (t_instr t (Some (id, instr))) s in
    let* t := (if called then mute_event fuel t else Ok t) in
    let* t := BKTrackUpdateUnit (BKTrackInstrumentUpdateFlags t true) in
    Ok (t, 0)
  end.

(** The instrument of the track is disposed of: [BKInstrumentResetStates], BKInstrument.c
    lines 63-76. *)
Definition track_instr_dispose (fuel : nat) (t : track) : res track :=
  match tr_instr t with
  | None => Ok t
  | Some _ =>
    let* t := BKTrackSetInstrument fuel t None in
    state_set_instrument fuel t None
  end.

(** What a client can do with a track, and what its context does. *)
Inductive top :=
| OAttr (attr value : Z)
| OPtr (attr : Z) (ptr : tptr) (size : Z)
| OData (event : option wdata)
| OInstrSet (slot : Z) (v : values) (so sl : Z)
| OInstrDispose
| OTick
| ORun (endTime : Z)
| OEnd (time : Z)
| OAttach (numChannels rate deltaTime : Z)
| ODetach
| OClear
| OReset.

Definition tstep (fuel : nat) (t : track) (o : top) : res (track * list (list (Z * Z))) :=
  match o with
  | OAttr attr value => let* (t, _) := BKTrackSetAttr fuel t (u32 attr) (s32 value) in Ok (t, [])
  | OPtr attr ptr size => let* (t, _) := BKTrackSetPtr fuel t (u32 attr) ptr size in Ok (t, [])
  | OData event => let* (t, _) := track_data_event t event in Ok (t, [])
  | OInstrSet slot v so sl => let* (t, _) := track_instr_set fuel t slot v so sl in Ok (t, [])
  | OInstrDispose => let* t := track_instr_dispose fuel t in Ok (t, [])
  | OTick => let* t := BKTrackTick fuel t in Ok (t, [])
  | ORun endTime => BKTrackRun fuel t (u32 endTime)
  | OEnd time => Ok (t_unit t (BKUnitEnd (tr_unit t) (u32 time)), [])
  | OAttach n rate time => let* (t, _) := BKTrackAttach t n rate (u32 time) in Ok (t, [])
  | ODetach => Ok (BKTrackDetach t, [])
  | OClear => let* t := BKTrackClear fuel t in Ok (t, [])
  | OReset => let* t := BKTrackReset fuel t in Ok (t, [])
  end.

Fixpoint truns (fuel : nat) (t : track) (ops : list top) : res (track * list (list (list (Z * Z)))) :=
  match ops with
  | [] => Ok (t, [])
  | o :: ops =>
    let* (t, l) := tstep fuel t o in
    let* (t, ls) := truns fuel t ops in
    Ok (t, l :: ls)
  end.
