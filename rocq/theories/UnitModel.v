(** Model of BKUnit.c.

    A run of a unit is modelled by the pulses it adds to every channel of its
    context (time and value as passed to [BKBufferAddPulse]) and the time passed
    to [BKBufferEnd]; ContextModel.v applies them to the buffers.  Callbacks
    installed by the user are taken not to call back into the unit.  The links
    between the units of a context are in ClockModel.v. *)
From Verif Require Import CInt DataModel.

(** BKBase.h lines 85-120: numbers of phases and limits. *)
Definition BK_MIN_DUTY_CYCLE : Z := 1.
Definition BK_MAX_DUTY_CYCLE : Z := 15.
Definition BK_DEFAULT_DUTY_CYCLE : Z := 2.
Definition BK_MIN_PERIOD : Z := 0.
Definition BK_MIN_SAMPLE_PERIOD : Z := 4096.
Definition BK_MAX_SAMPLE_PERIOD : Z := 268435456.
Definition BK_WAVE_MAX_LENGTH : Z := 64.
Definition BK_SQUARE_PHASES : Z := 16.
Definition BK_TRIANGLE_PHASES : Z := 32.
Definition BK_NOISE_PHASES : Z := 8.
Definition BK_SAWTOOTH_PHASES : Z := 7.
Definition BK_SINE_PHASES : Z := 32.

(** Track attributes, BKBase.h lines 237-275 (type number 2 << 12). *)
Definition BK_WAVEFORM : Z := 8193.
Definition BK_DUTY_CYCLE : Z := 8194.
Definition BK_PERIOD : Z := 8195.
Definition BK_PHASE : Z := 8196.
Definition BK_PHASE_WRAP : Z := 8197.
Definition BK_NUM_PHASES : Z := 8198.
Definition BK_MASTER_VOLUME : Z := 8199.
Definition BK_VOLUME : Z := 8200.
Definition BK_VOLUME_0 : Z := 8201.
Definition BK_VOLUME_7 : Z := 8208.
Definition BK_MUTE : Z := 8209.
Definition BK_PITCH : Z := 8210.
Definition BK_SAMPLE_RANGE : Z := 8211.
Definition BK_SAMPLE_REPEAT : Z := 8212.
Definition BK_SAMPLE_SUSTAIN_RANGE : Z := 8213.
Definition BK_SAMPLE_IMMED_RELEASE : Z := 8214.
Definition BK_SAMPLE_PERIOD : Z := 8215.
Definition BK_SAMPLE_PITCH : Z := 8216.
Definition BK_SAMPLE_CALLBACK : Z := 8217.
Definition BK_FLAG_RELEASE : Z := 8218.
Definition BK_NOTE : Z := 8219.
Definition BK_ARPEGGIO : Z := 8220.
Definition BK_PANNING : Z := 8221.
Definition BK_INSTRUMENT : Z := 8222.
Definition BK_CLOCK_PERIOD : Z := 8223.
Definition BK_ARPEGGIO_DIVIDER : Z := 8224.
Definition BK_EFFECT_DIVIDER : Z := 8225.
Definition BK_INSTRUMENT_DIVIDER : Z := 8226.
Definition BK_TRIANGLE_IGNORES_VOLUME : Z := 8227.

(** Waveforms, BKBase.h lines 289-299 (type number 4 << 12). *)
Definition BK_SQUARE : Z := 16385.
Definition BK_TRIANGLE : Z := 16386.
Definition BK_NOISE : Z := 16387.
Definition BK_SAWTOOTH : Z := 16388.
Definition BK_SINE : Z := 16389.
Definition BK_CUSTOM : Z := 16390.
Definition BK_SAMPLE : Z := 16391.

(** Repeat options, BKBase.h lines 329-334. *)
Definition BK_NO_REPEAT : Z := 0.
Definition BK_REPEAT : Z := 1.
Definition BK_PALINDROME : Z := 2.

(** Wave tables, BKUnit.c lines 32-73. *)
Definition MAV : Z := BK_MAX_VOLUME.
Definition MIV : Z := - BK_MAX_VOLUME.
Definition squarePhases : list (list Z) :=
  [[0; MAV; 0; 0; 0; 0; 0; 0; 0; 0; 0; 0; 0; 0; 0; 0];
   [0; MAV; 0; 0; 0; 0; 0; 0; 0; 0; 0; 0; 0; 0; 0; 0];
   [0; 0; MAV; MAV; 0; 0; 0; 0; 0; 0; 0; 0; 0; 0; 0; 0];
   [0; 0; MAV; MAV; MAV; 0; 0; 0; 0; 0; 0; 0; 0; 0; 0; 0];
   [0; 0; 0; MAV; MAV; MAV; MAV; 0; 0; 0; 0; 0; 0; 0; 0; 0];
   [0; 0; 0; MAV; MAV; MAV; MAV; MAV; 0; 0; 0; 0; 0; 0; 0; 0];
   [0; 0; 0; 0; MAV; MAV; MAV; MAV; MAV; MAV; 0; 0; 0; 0; 0; 0];
   [0; 0; 0; 0; MAV; MAV; MAV; MAV; MAV; MAV; MAV; 0; 0; 0; 0; 0];
   [0; 0; 0; 0; 0; MAV; MAV; MAV; MAV; MAV; MAV; MAV; MAV; 0; 0; 0];
   [0; 0; 0; 0; 0; 0; MIV; MIV; MIV; MIV; MIV; MIV; MIV; MIV; MIV; 0];
   [0; 0; 0; 0; 0; MIV; MIV; MIV; MIV; MIV; MIV; MIV; MIV; MIV; MIV; 0];
   [0; 0; 0; 0; MIV; MIV; MIV; MIV; MIV; MIV; MIV; MIV; MIV; MIV; MIV; 0];
   [0; 0; 0; MIV; MIV; MIV; MIV; MIV; MIV; MIV; MIV; MIV; MIV; MIV; MIV; 0];
   [0; 0; MIV; MIV; MIV; MIV; MIV; MIV; MIV; MIV; MIV; MIV; MIV; MIV; MIV; 0];
   [0; MIV; MIV; MIV; MIV; MIV; MIV; MIV; MIV; MIV; MIV; MIV; MIV; MIV; MIV; 0];
   [MIV; MIV; MIV; MIV; MIV; MIV; MIV; MIV; MIV; MIV; MIV; MIV; MIV; MIV; MIV; 0];
   [MIV; MIV; MIV; MIV; MIV; MIV; MIV; MIV; MIV; MIV; MIV; MIV; MIV; MIV; MIV; 0]].
Definition trianglePhases : list Z :=
  [0; 2047; 4095; 6143; 8191; 10239; 12287; 14335;
   14335; 12287; 10239; 8191; 6143; 4095; 2047; 0;
   -2047; -4095; -6143; -8191; -10239; -12287; -14335; -16383;
   -16383; -14335; -12287; -10239; -8191; -6143; -4095; -2047].
Definition sawtoothPhases : list Z :=
  [32766; 27305; 21844; 16383; 10922; 5461; 0].
Definition sinePhases : list Z :=
  [0; 6392; 12539; 18204; 23169; 27244; 30272; 32137;
   32767; 32137; 30272; 27244; 23169; 18204; 12539; 6392;
   0; -6392; -12539; -18204; -23169; -27244; -30272; -32137;
   -32767; -32137; -30272; -27244; -23169; -18204; -12539; -6392].

(** What a unit sees of a data object ([struct BKData], BKData.h): the members
    [numFrames], [numChannels] and the memory [frames] points to. *)
Record wdata := mk_wdata {
  w_numFrames : Z;
  w_numChannels : Z;
  w_frames : list Z
}.

(** [struct BKUnit], BKUnit.h lines 51-104: [phase] ... *)
Record uphase := mk_phase {
  ph_phase : Z;      (* BKUInt *)
  ph_wrap : Z;       (* BKUInt *)
  ph_wrapCount : Z;  (* BKInt *)
  ph_count : Z       (* BKUInt *)
}.
(** ... [sample]; [sm_data] is [dataState.data] (the registration with the data
    object is in DataModel.v), [sm_callback] is what the callback installed ([callback.func])
    answers, [None] without one; [sm_frames] is the pointer [frames] as the memory block and the index in it ... *)
Record usample := mk_sample {
  sm_data : option wdata;
  sm_numChannels : Z;   (* BKUInt *)
  sm_length : Z;        (* BKUInt *)
  sm_offset : Z;        (* BKUInt *)
  sm_end : Z;           (* BKUInt *)
  sm_repeatMode : Z;    (* BKUInt *)
  sm_repeatCount : Z;   (* BKUInt *)
  sm_sustainOffset : Z; (* BKUInt *)
  sm_sustainEnd : Z;    (* BKUInt *)
  sm_timeFrac : Z;      (* BKFInt20 *)
  sm_period : Z;        (* BKFInt20 *)
  sm_callback : option Z;
  sm_frames : option (list Z * Z)
}.
(** ... and the rest.  [un_ctx] is the number of channels of the context the unit
    is attached to; the three flags are those of BKUnit.h lines 30-36. *)
Record bkunit := mk_unit {
  un_ctx : option Z;
  un_time : Z;           (* BKFUInt20 *)
  un_period : Z;         (* BKFUInt20 *)
  un_lastPulse : list Z; (* BKInt [BK_MAX_CHANNELS] *)
  un_waveform : Z;       (* BKEnum *)
  un_duty : Z;           (* BKUInt *)
  un_volume : list Z;    (* BKInt [BK_MAX_CHANNELS] *)
  un_mute : Z;           (* BKInt *)
  un_phase : uphase;
  un_sample : usample;
  un_sustain : bool;     (* BKUnitFlagSampleSustainRange *)
  un_jump : bool;        (* BKUnitFlagSampleSustainJump *)
  un_release : bool      (* BKUnitFlagRelease *)
}.

(** Assignments to single members. *)
Definition p_phase (p : uphase) v := mk_phase v (ph_wrap p) (ph_wrapCount p) (ph_count p).
Definition p_wrapCount (p : uphase) v := mk_phase (ph_phase p) (ph_wrap p) v (ph_count p).
Definition p_count (p : uphase) v := mk_phase (ph_phase p) (ph_wrap p) (ph_wrapCount p) v.

Definition set_ctx u v := mk_unit v (un_time u) (un_period u) (un_lastPulse u) (un_waveform u)
  (un_duty u) (un_volume u) (un_mute u) (un_phase u) (un_sample u) (un_sustain u) (un_jump u) (un_release u).
Definition set_time u v := mk_unit (un_ctx u) v (un_period u) (un_lastPulse u) (un_waveform u)
  (un_duty u) (un_volume u) (un_mute u) (un_phase u) (un_sample u) (un_sustain u) (un_jump u) (un_release u).
Definition set_period u v := mk_unit (un_ctx u) (un_time u) v (un_lastPulse u) (un_waveform u)
  (un_duty u) (un_volume u) (un_mute u) (un_phase u) (un_sample u) (un_sustain u) (un_jump u) (un_release u).
Definition set_lastPulse u v := mk_unit (un_ctx u) (un_time u) (un_period u) v (un_waveform u)
  (un_duty u) (un_volume u) (un_mute u) (un_phase u) (un_sample u) (un_sustain u) (un_jump u) (un_release u).
Definition set_waveform u v := mk_unit (un_ctx u) (un_time u) (un_period u) (un_lastPulse u) v
  (un_duty u) (un_volume u) (un_mute u) (un_phase u) (un_sample u) (un_sustain u) (un_jump u) (un_release u).
Definition set_duty u v := mk_unit (un_ctx u) (un_time u) (un_period u) (un_lastPulse u) (un_waveform u)
  v (un_volume u) (un_mute u) (un_phase u) (un_sample u) (un_sustain u) (un_jump u) (un_release u).
Definition set_volume u v := mk_unit (un_ctx u) (un_time u) (un_period u) (un_lastPulse u) (un_waveform u)
  (un_duty u) v (un_mute u) (un_phase u) (un_sample u) (un_sustain u) (un_jump u) (un_release u).
Definition set_mute u v := mk_unit (un_ctx u) (un_time u) (un_period u) (un_lastPulse u) (un_waveform u)
  (un_duty u) (un_volume u) v (un_phase u) (un_sample u) (un_sustain u) (un_jump u) (un_release u).
Definition set_ph u v := mk_unit (un_ctx u) (un_time u) (un_period u) (un_lastPulse u) (un_waveform u)
  (un_duty u) (un_volume u) (un_mute u) v (un_sample u) (un_sustain u) (un_jump u) (un_release u).
Definition set_sm u v := mk_unit (un_ctx u) (un_time u) (un_period u) (un_lastPulse u) (un_waveform u)
  (un_duty u) (un_volume u) (un_mute u) (un_phase u) v (un_sustain u) (un_jump u) (un_release u).
Definition set_flags u a b c := mk_unit (un_ctx u) (un_time u) (un_period u) (un_lastPulse u) (un_waveform u)
  (un_duty u) (un_volume u) (un_mute u) (un_phase u) (un_sample u) a b c.
Definition set_phase u v := set_ph u (p_phase (un_phase u) v).

Definition s_data (s : usample) v := mk_sample v (sm_numChannels s) (sm_length s) (sm_offset s) (sm_end s)
  (sm_repeatMode s) (sm_repeatCount s) (sm_sustainOffset s) (sm_sustainEnd s) (sm_timeFrac s) (sm_period s)
  (sm_callback s) (sm_frames s).
Definition s_range (s : usample) offset end_ frames := mk_sample (sm_data s) (sm_numChannels s) (sm_length s) offset end_
  (sm_repeatMode s) (sm_repeatCount s) (sm_sustainOffset s) (sm_sustainEnd s) (sm_timeFrac s) (sm_period s)
  (sm_callback s) frames.
Definition s_length (s : usample) v := mk_sample (sm_data s) (sm_numChannels s) v (sm_offset s) (sm_end s)
  (sm_repeatMode s) (sm_repeatCount s) (sm_sustainOffset s) (sm_sustainEnd s) (sm_timeFrac s) (sm_period s)
  (sm_callback s) (sm_frames s).
Definition s_repeatMode (s : usample) v := mk_sample (sm_data s) (sm_numChannels s) (sm_length s) (sm_offset s) (sm_end s)
  v (sm_repeatCount s) (sm_sustainOffset s) (sm_sustainEnd s) (sm_timeFrac s) (sm_period s)
  (sm_callback s) (sm_frames s).
Definition s_repeatCount (s : usample) v := mk_sample (sm_data s) (sm_numChannels s) (sm_length s) (sm_offset s) (sm_end s)
  (sm_repeatMode s) v (sm_sustainOffset s) (sm_sustainEnd s) (sm_timeFrac s) (sm_period s)
  (sm_callback s) (sm_frames s).
Definition s_sustain (s : usample) a b := mk_sample (sm_data s) (sm_numChannels s) (sm_length s) (sm_offset s) (sm_end s)
  (sm_repeatMode s) (sm_repeatCount s) a b (sm_timeFrac s) (sm_period s)
  (sm_callback s) (sm_frames s).
Definition s_timeFrac (s : usample) v := mk_sample (sm_data s) (sm_numChannels s) (sm_length s) (sm_offset s) (sm_end s)
  (sm_repeatMode s) (sm_repeatCount s) (sm_sustainOffset s) (sm_sustainEnd s) v (sm_period s)
  (sm_callback s) (sm_frames s).
Definition s_period (s : usample) v := mk_sample (sm_data s) (sm_numChannels s) (sm_length s) (sm_offset s) (sm_end s)
  (sm_repeatMode s) (sm_repeatCount s) (sm_sustainOffset s) (sm_sustainEnd s) (sm_timeFrac s) v
  (sm_callback s) (sm_frames s).
Definition s_callback (s : usample) v := mk_sample (sm_data s) (sm_numChannels s) (sm_length s) (sm_offset s) (sm_end s)
  (sm_repeatMode s) (sm_repeatCount s) (sm_sustainOffset s) (sm_sustainEnd s) (sm_timeFrac s) (sm_period s)
  v (sm_frames s).

(** [BKAbs] applied to an [int]: the negation of [INT_MIN] overflows. *)
Definition abs32 (v : Z) : res Z := if v <? 0 then chk32 (- v) else Ok v.

(** ** Data *)

(** [BKUnitTrySetData], BKUnit.c lines 78-168; [data] is [None] for NULL,
    [dispose] tells whether [event] is [BK_DATA_STATE_EVENT_DISPOSE]. *)
Definition BKUnitTrySetData (u : bkunit) (data : option wdata) (type : Z) (dispose : bool) : res (bkunit * Z) :=
  match un_ctx u with
  | None => Ok (u, BK_INVALID_STATE)
  | Some numChannels =>
    let s := un_sample u in
    if type =? BK_WAVEFORM then
      match (if dispose then None else data) with
      | Some d =>
        if w_numFrames d >=? 2 then
          let p := p_phase (p_count (un_phase u) (BKMin (w_numFrames d) BK_WAVE_MAX_LENGTH)) 0 in
          let s := s_repeatCount (s_range s 0 (w_numFrames d) (Some (w_frames d, 0))) 0 in
          Ok (set_sm (set_ph (set_waveform u BK_CUSTOM) p) s, 0)
        else Ok (u, BK_INVALID_NUM_FRAMES)
      | None =>
        if un_waveform u =? BK_CUSTOM then Ok (set_sm (set_waveform u 0) (s_range s 0 0 None), -1)
        else Ok (u, 0)
      end
    else if type =? BK_SAMPLE then
      match (if dispose then None else data) with
      | Some d =>
        if negb (w_numChannels d =? 1) && negb (w_numChannels d =? numChannels)
        then Ok (u, BK_INVALID_NUM_CHANNELS)
        else if w_numFrames d <? 2 then Ok (u, BK_INVALID_NUM_FRAMES)
        else
          let* period := abs32 (sm_period s) in
          let s := mk_sample (sm_data s) (w_numChannels d) (w_numFrames d) 0 (w_numFrames d)
                             0 0 0 0 (sm_timeFrac s) period (sm_callback s) (Some (w_frames d, 0)) in
          let p := p_phase (p_count (un_phase u) 1) 0 in
          Ok (set_flags (set_sm (set_ph (set_waveform u BK_SAMPLE) p) s) false false false, 0)
      | None =>
        if un_waveform u =? BK_SAMPLE then
          let s := s_repeatMode (s_sustain (s_range s 0 0 None) 0 0) 0 in
          Ok (set_flags (set_phase (set_sm (set_waveform u 0) s) 0) false false false, 0)
        else Ok (u, 0)
      end
    else Ok (u, BK_INVALID_ATTRIBUTE)
  end.

(** [BKDataStateSetData] on the data state of the unit, BKData.c lines 690-696 (the
    data object is not in the middle of notifying its users). *)
Definition unit_data_state (u : bkunit) (data : option wdata) : bkunit :=
  set_sm u (s_data (un_sample u) data).

(** [BKUnitSetData], lines 170-191. *)
Definition BKUnitSetData (u : bkunit) (type : Z) (data : option wdata) : res (bkunit * Z) :=
  let* (u, r) := BKUnitTrySetData u data type false in
  if r =? 0 then Ok (unit_data_state u data, r)
  else if (un_waveform u =? BK_CUSTOM) || (un_waveform u =? BK_SAMPLE) then Ok (set_waveform u 0, r)
  else Ok (u, r).

(** [BKUnitSampleDataStateCallback], lines 193-214. *)
Definition BKUnitSampleDataStateCallback (dispose : bool) (u : bkunit) : res (bkunit * Z) :=
  if un_waveform u =? BK_CUSTOM then
    BKUnitTrySetData u (sm_data (un_sample u)) BK_WAVEFORM dispose
  else if un_waveform u =? BK_SAMPLE then
    BKUnitTrySetData u (sm_data (un_sample u)) BK_SAMPLE dispose
  else Ok (u, -1).

(** The data object a unit is registered with has new contents, or is disposed of:
    what [BKDataResetStates] (BKData.c lines 99-139) does to the unit. *)
Definition unit_data_event (u : bkunit) (event : option wdata) : res (bkunit * Z) :=
  match sm_data (un_sample u) with
  | None => Ok (u, 0)
  | Some _ =>
    match event with
    | Some d =>
      let* (u, r) := BKUnitSampleDataStateCallback false (unit_data_state u (Some d)) in
      Ok (if r <? 0 then unit_data_state u None else u, r)
    | None =>
      let* (u, r) := BKUnitSampleDataStateCallback true u in
      Ok (unit_data_state u None, r)
    end
  end.

(** [BKUnitUpdateSampleRange], lines 311-362. *)
Definition BKUnitUpdateSampleRange (u : bkunit) (offset end_ : Z) : res bkunit :=
  let s := un_sample u in
  match sm_data s with
  | None => Ok u
  | Some d =>
    let sampleLength := s32 (w_numFrames d) in
    let* offset := (if offset <? 0 then
                      let* l := chk32 (sampleLength + 1) in chk32 (offset + l) else Ok offset) in
    let offset := BKClamp offset 0 sampleLength in
    let* end_ := (if end_ <? 0 then
                    let* l := chk32 (sampleLength + 1) in chk32 (end_ + l) else Ok end_) in
    let end_ := BKClamp end_ 0 sampleLength in
    let oldOffset := s32 (BKMin (sm_offset s) (sm_end s)) in
    let newOffset := BKMin offset end_ in
    let newLength := BKAbs (offset - end_) in
    let* dif := chk32 (oldOffset - newOffset) in
    let newPhase := s32 (ph_phase (un_phase u) + dif) in
    let newPhase := if (newPhase <? 0) || (newPhase >=? newLength) then 0 else newPhase in
    let frames := (w_frames d, u32 (newOffset * sm_numChannels s)) in
    let* period := abs32 (sm_period s) in
    let period := if offset >? end_ then - period else period in
    let newPhase :=
      if sm_repeatCount s =? 0 then
        if (offset <? end_) && (ph_phase (un_phase u) =? u32 (newLength - 1)) then 0
        else if ph_phase (un_phase u) =? 0 then s32 (u32 (newLength - 1))
        else newPhase
      else newPhase in
    let s := s_period (s_length (s_range s offset end_ (Some frames)) newLength) period in
    Ok (set_phase (set_sm u s) (u32 newPhase))
  end.

(** [BKUnitUpdateSampleSustainRange], lines 364-396. *)
Definition BKUnitUpdateSampleSustainRange (u : bkunit) (offset end_ : Z) : res bkunit :=
  let s := un_sample u in
  match sm_data s with
  | None => Ok u
  | Some d =>
    let sampleLength := s32 (w_numFrames d) in
    let* offset := (if offset <? 0 then
                      let* l := chk32 (sampleLength + 1) in chk32 (offset + l) else Ok offset) in
    let* end_ := (if end_ <? 0 then
                    let* l := chk32 (sampleLength + 1) in chk32 (end_ + l) else Ok end_) in
    let offset := BKClamp offset 0 sampleLength in
    let end_ := BKClamp end_ 0 sampleLength in
    let (offset, end_) := (if end_ <? offset then (end_, offset) else (offset, end_)) in
    let u := set_flags u (negb (offset =? end_)) (un_jump u) (un_release u) in
    Ok (set_sm u (s_sustain s offset end_))
  end.

(** ** Attributes *)

(** The inner switch of [BK_WAVEFORM], lines 417-446. *)
Definition waveform_phases (value : Z) : option Z :=
  if value =? 0 then Some BK_SQUARE_PHASES
  else if value =? BK_SQUARE then Some BK_SQUARE_PHASES
  else if value =? BK_TRIANGLE then Some BK_TRIANGLE_PHASES
  else if value =? BK_NOISE then Some BK_NOISE_PHASES
  else if value =? BK_SAWTOOTH then Some BK_SAWTOOTH_PHASES
  else if value =? BK_SINE then Some BK_SINE_PHASES
  else None.

(** [BKUnitSetAttr], lines 398-575: the unit and the return code. *)
Definition BKUnitSetAttr (u : bkunit) (attr value : Z) : res (bkunit * Z) :=
  let s := un_sample u in
  let p := un_phase u in
  if attr =? BK_DUTY_CYCLE then
    let value := BKClamp value BK_MIN_DUTY_CYCLE BK_MAX_DUTY_CYCLE in
    if negb (un_duty u =? value) then
      let u := if (un_waveform u =? BK_SQUARE) && (value >? un_duty u) && (ph_phase p <? value)
               then set_phase u 0 else u in
      Ok (set_duty u value, 0)
    else Ok (u, 0)
  else if attr =? BK_WAVEFORM then
    match waveform_phases value with
    | None => Ok (u, BK_INVALID_VALUE)
    | Some count =>
      let u := set_ph u (p_count p count) in
      let u := if negb (un_waveform u =? value) then set_waveform (set_phase u 0) value else u in
      Ok (unit_data_state u None, 0)
    end
  else if attr =? BK_PHASE then
    if negb (un_waveform u =? BK_SAMPLE) then
      Ok (set_phase u (BKClamp value 0 (u32 (ph_count p - 1))), 0)
    else
      let value := if value <? 0
                   then if sm_end s >? sm_offset s then 0 else s32 (u32 (sm_length s - 1))
                   else value in
      Ok (set_phase u (BKClamp value 0 (u32 (sm_length s - 1))), 0)
  else if attr =? BK_PHASE_WRAP then
    let value := if negb (value =? 0) then BKMax value 2 else 0 in
    Ok (set_ph u (mk_phase 0 value value (ph_count p)), 0)
  else if attr =? BK_PERIOD then
    let* v := abs32 value in
    Ok (set_period u (BKMax v BK_MIN_PERIOD), 0)
  else if attr =? BK_VOLUME then
    Ok (set_volume u (repeat (BKClamp value 0 BK_MAX_VOLUME) (Z.to_nat BK_MAX_CHANNELS)), 0)
  else if (BK_VOLUME_0 <=? attr) && (attr <=? BK_VOLUME_7) then
    let* v := aset (un_volume u) (attr - BK_VOLUME_0) (BKClamp value 0 BK_MAX_VOLUME) in
    Ok (set_volume u v, 0)
  else if attr =? BK_MUTE then
    Ok (set_mute u (if value =? 0 then 0 else 1), 0)
  else if attr =? BK_SAMPLE_REPEAT then
    let value := if (value =? BK_NO_REPEAT) || (value =? BK_REPEAT) || (value =? BK_PALINDROME)
                 then value else BK_NO_REPEAT in
    Ok (set_sm u (s_repeatMode s value), 0)
  else if attr =? BK_SAMPLE_PERIOD then
    let* v := abs32 value in
    let v := BKClamp v BK_MIN_SAMPLE_PERIOD BK_MAX_SAMPLE_PERIOD in
    Ok (set_sm u (s_period s (if sm_period s <? 0 then - v else v)), 0)
  else if attr =? BK_SAMPLE_IMMED_RELEASE then
    Ok (set_flags u (un_sustain u) (negb (value =? 0)) (un_release u), 0)
  else if attr =? BK_FLAG_RELEASE then
    if un_sustain u then
      let u := set_flags u (un_sustain u) (un_jump u) (negb (value =? 0)) in
      if negb (value =? 0) && un_jump u && (un_mute u =? 0) then
        if sm_period s >? 0 then Ok (set_phase u (sm_sustainEnd s), 0)
        else
          let* o := chk32 (s32 (sm_sustainOffset s) - 1) in
          Ok (set_phase u (BKMax 0 o), 0)
      else Ok (u, 0)
    else Ok (u, 0)
  else Ok (u, BK_INVALID_ATTRIBUTE).

(** [BKUnitGetAttr], lines 577-646: return code and value ([None]: not written). *)
Definition BKUnitGetAttr (u : bkunit) (attr : Z) : res (Z * option Z) :=
  let s := un_sample u in
  let p := un_phase u in
  let ok v := Ok (0, Some v) in
  if attr =? BK_WAVEFORM then ok (s32 (un_waveform u))
  else if attr =? BK_DUTY_CYCLE then ok (s32 (un_duty u))
  else if attr =? BK_PERIOD then ok (s32 (un_period u))
  else if attr =? BK_PHASE then ok (s32 (ph_phase p))
  else if attr =? BK_PHASE_WRAP then ok (s32 (ph_wrap p))
  else if attr =? BK_NUM_PHASES then
    ok (s32 (if negb (un_waveform u =? BK_SAMPLE) then ph_count p else sm_length s))
  else if (BK_VOLUME_0 <=? attr) && (attr <=? BK_VOLUME_7) then
    let* v := aget (un_volume u) (attr - BK_VOLUME_0) in ok v
  else if attr =? BK_MUTE then ok (un_mute u)
  else if attr =? BK_SAMPLE_REPEAT then ok (s32 (sm_repeatMode s))
  else if attr =? BK_SAMPLE_PERIOD then let* v := abs32 (sm_period s) in ok v
  else if attr =? BK_SAMPLE_IMMED_RELEASE then ok (if un_jump u then 1 else 0)
  else if attr =? BK_FLAG_RELEASE then ok (if un_release u then 1 else 0)
  else Ok (BK_INVALID_ATTRIBUTE, None).

(** What the pointer argument of [BKUnitSetPtr] points to. *)
Inductive uptr :=
| PNull
| PCallback (answer : Z)
| PData (d : wdata)
| PRange (a b : Z).

(** [BKUnitSetPtr], lines 648-719 (and [BKUnitSetPtrSize], lines 1269-1272).  A
    pointer to an object of another kind than the attribute calls for is read as
    that kind: not modelled ([Err EBounds]). *)
Definition BKUnitSetPtr (u : bkunit) (attr : Z) (ptr : uptr) : res (bkunit * Z) :=
  if attr =? BK_SAMPLE_CALLBACK then
    match ptr with
    | PNull => Ok (set_sm u (s_callback (un_sample u) None), 0)
    | PCallback answer => Ok (set_sm u (s_callback (un_sample u) (Some answer)), 0)
    | _ => Err EBounds
    end
  else if (attr =? BK_WAVEFORM) || (attr =? BK_SAMPLE) then
    let* data := match ptr with PNull => Ok None | PData d => Ok (Some d) | _ => Err EBounds end in
    let* (u, r) := BKUnitSetData u attr data in
    if r <? 0 then Ok (u, r) else Ok (u, 0)
  else if attr =? BK_SAMPLE_RANGE then
    if negb (un_waveform u =? BK_SAMPLE) then Ok (u, BK_INVALID_STATE)
    else
      let* (a, b) := match ptr with PNull => Ok (0, -1) | PRange a b => Ok (a, b) | _ => Err EBounds end in
      let* u := BKUnitUpdateSampleRange u a b in
      let* u := BKUnitUpdateSampleSustainRange u 0 0 in
      Ok (u, 0)
  else if attr =? BK_SAMPLE_SUSTAIN_RANGE then
    if negb (un_waveform u =? BK_SAMPLE) then Ok (u, BK_INVALID_STATE)
    else
      let* (a, b) := match ptr with
                     | PNull => Ok (0, 0)
                     | PRange a b => Ok (if a =? b then (0, 0) else (a, b))
                     | _ => Err EBounds
                     end in
      let* u := BKUnitUpdateSampleSustainRange u a b in
      Ok (u, 0)
  else Ok (u, BK_INVALID_ATTRIBUTE).

(** [BKUnitGetPtr], lines 721-763: return code and what is stored in the argument. *)
Definition BKUnitGetPtr (u : bkunit) (attr : Z) : Z * uptr :=
  let s := un_sample u in
  if attr =? BK_SAMPLE_CALLBACK then (0, match sm_callback s with Some a => PCallback a | None => PNull end)
  else if attr =? BK_SAMPLE then
    (0, if (un_waveform u =? BK_CUSTOM) || (un_waveform u =? BK_SAMPLE)
        then match sm_data s with Some d => PData d | None => PNull end
        else PNull)
  else if attr =? BK_SAMPLE_RANGE then (0, PRange (s32 (sm_offset s)) (s32 (sm_end s)))
  else if attr =? BK_SAMPLE_SUSTAIN_RANGE then (0, PRange (s32 (sm_sustainOffset s)) (s32 (sm_sustainEnd s)))
  else (BK_INVALID_ATTRIBUTE, PNull).

(** [BKUnitGetPtrSize], lines 1274-1277: what [BKGetPtr] calls for a unit, the last
    argument being the contents of the memory the caller passes for the result.  The
    result is the unit and what that memory holds after the call. *)
Definition BKUnitGetPtrSize (u : bkunit) (attr : Z) (out : uptr) : res (bkunit * Z * uptr) :=
  let* (u, r) := BKUnitSetPtr u attr out in
  Ok (u, r, out).

(** ** Waveforms *)

(** [delta = (pulse * volume) >> BK_VOLUME_SHIFT] and [chanDelta = delta - lastPulse]
    (e.g. lines 778-781). *)
Definition pulse_delta (pulse volume lastPulse : Z) : res (Z * Z) :=
  let* m := chk32 (pulse * volume) in
  let delta := Z.shiftr m BK_VOLUME_SHIFT in
  let* chanDelta := chk32 (delta - lastPulse) in
  Ok (delta, chanDelta).

(** The noise step, lines 841-843: the new state and the pulse. *)
Definition noise_step (phase : Z) : Z * Z :=
  let pulse := Z.land (Z.lxor (Z.lxor (Z.lxor (Z.shiftr phase 0) (Z.shiftr phase 2))
                                      (Z.shiftr phase 3)) (Z.shiftr phase 5)) 1 in
  (Z.lor (Z.shiftr phase 1) (u32 (Z.shiftl pulse 15)),
   if pulse =? 0 then Z.quot (- BK_MAX_VOLUME) 2 else Z.quot BK_MAX_VOLUME 2).

(** [if (wrap) { if (-- wrapCount <= 0) { wrapCount = wrap; phase = first; } }], lines
    834-839 and 926-931; [wrapCount] is unsigned here. *)
Definition wrap_step (wrap wrapCount phase first : Z) : Z * Z :=
  if negb (wrap =? 0) then
    let wrapCount := u32 (wrapCount - 1) in
    if wrapCount <=? 0 then (wrap, first) else (wrapCount, phase)
  else (wrapCount, phase).

(** One iteration of the loops of [BKUnitRunWaveformSquare] (775-776), [...Triangle]
    (801-802), [...Noise] (834-843), [...Sawtooth] (869-873), [...Sine] (898-899) and
    [...Custom] (926-937): pulse, new phase and new wrap count. *)
Definition wave_step (u : bkunit) (phase wrapCount : Z) : res (Z * Z * Z) :=
  let w := un_waveform u in
  if w =? BK_SQUARE then
    let* row := aget squarePhases (s32 (un_duty u)) in
    let* pulse := aget row phase in
    Ok (pulse, Z.land (u32 (phase + 1)) (BK_SQUARE_PHASES - 1), wrapCount)
  else if w =? BK_TRIANGLE then
    let* pulse := aget trianglePhases phase in
    Ok (pulse, Z.land (u32 (phase + 1)) (BK_TRIANGLE_PHASES - 1), wrapCount)
  else if w =? BK_NOISE then
    let (wrapCount, phase) := wrap_step (ph_wrap (un_phase u)) wrapCount phase 19009 in
    let (phase, pulse) := noise_step phase in
    Ok (pulse, phase, wrapCount)
  else if w =? BK_SAWTOOTH then
    let* pulse := aget sawtoothPhases phase in
    let phase := u32 (phase + 1) in
    Ok (pulse, if phase >=? BK_SAWTOOTH_PHASES then 0 else phase, wrapCount)
  else if w =? BK_SINE then
    let* pulse := aget sinePhases phase in
    Ok (Z.quot pulse 2, Z.land (u32 (phase + 1)) (BK_SINE_PHASES - 1), wrapCount)
  else
    let (wrapCount, phase) := wrap_step (ph_wrap (un_phase u)) wrapCount phase 0 in
    match sm_frames (un_sample u) with
    | None => Err ENull
    | Some (frames, base) =>
      let* pulse := aget frames (base + phase) in
      let phase := u32 (phase + 1) in
      Ok (pulse, if phase >=? ph_count (un_phase u) then 0 else phase, wrapCount)
    end.

(** The loops of these functions (e.g. lines 774-784): new time, phase, wrap count and
    last pulse, and the pulses added. *)
Fixpoint wave_loop (fuel : nat) (u : bkunit) (volume endTime time phase wrapCount lastPulse : Z)
  : res (Z * Z * Z * Z * list (Z * Z)) :=
  if time <? endTime then
    match fuel with
    | O => Err EFuel
    | S fuel =>
      let* (pulse, phase, wrapCount) := wave_step u phase wrapCount in
      let* (delta, chanDelta) := pulse_delta pulse volume lastPulse in
      let* (t, ph, wc, lp, l) :=
        wave_loop fuel u volume endTime (u32 (time + un_period u)) phase wrapCount delta in
      Ok (t, ph, wc, lp, (time, chanDelta) :: l)
    end
  else Ok (time, phase, wrapCount, lastPulse, []).

(** The six functions, lines 765-952: start of the loop (827-830 for noise) and what is
    stored back.  [wrapCount] is an unsigned local in noise and custom waveforms and
    not touched in the others. *)
Definition run_wave (fuel : nat) (u : bkunit) (volume endTime time phase wrapCount lastPulse : Z)
  : res (Z * Z * Z * Z * list (Z * Z)) :=
  let phase := if (un_waveform u =? BK_NOISE) && (phase =? 0) then 19009 else phase in
  let* (t, ph, wc, lp, l) := wave_loop fuel u volume endTime time phase (u32 wrapCount) lastPulse in
  Ok (t, ph, s32 wc, lp, l).

(** The loop over the channels in [BKUnitRunWaveform], lines 973-1015; [n] channels are
    left, the next one is [i]. *)
Fixpoint wave_channels (n : nat) (i : Z) (fuel : nat) (u : bkunit) (origPhase origWrapCount time endTime : Z)
  : res (bkunit * Z * list (list (Z * Z))) :=
  match n with
  | O => Ok (u, time, [])
  | S n =>
    let* volume := aget (un_volume u) i in
    if volume =? 0 then
      let* (u, t, l) := wave_channels n (i + 1) fuel u origPhase origWrapCount time endTime in
      Ok (u, t, [] :: l)
    else
      let* lastPulse := aget (un_lastPulse u) i in
      let* (t, ph, wc, lp, pulses) :=
        run_wave fuel u volume endTime (un_time u) origPhase origWrapCount lastPulse in
      let u := set_ph u (p_wrapCount (p_phase (un_phase u) ph) wc) in
      let* last := aset (un_lastPulse u) i lp in
      let* (u, t, l) := wave_channels n (i + 1) fuel (set_lastPulse u last) origPhase origWrapCount t endTime in
      Ok (u, t, pulses :: l)
  end.

(** [BKUnitRunWaveform], lines 957-1018. *)
Definition BKUnitRunWaveform (fuel : nat) (u : bkunit) (numChannels endTime : Z)
  : res (bkunit * Z * list (list (Z * Z))) :=
  if negb (un_mute u =? 0) then Ok (u, 0, repeat [] (Z.to_nat numChannels))
  else wave_channels (Z.to_nat numChannels) 0 fuel u
                     (ph_phase (un_phase u)) (ph_wrapCount (un_phase u)) 0 endTime.

(** ** Samples *)

(** The loops of [BKUnitWrapSamplePhase], lines 1031-1033 and 1040-1042. *)
Fixpoint wrap_down (fuel : nat) (phase max length : Z) : res Z :=
  if s32 phase >=? max then
    match fuel with O => Err EFuel | S fuel => wrap_down fuel (u32 (phase - length)) max length end
  else Ok phase.
Fixpoint wrap_up (fuel : nat) (phase min length : Z) : res Z :=
  if s32 phase <? min then
    match fuel with O => Err EFuel | S fuel => wrap_up fuel (u32 (phase + length)) min length end
  else Ok phase.
(** [BKUnitWrapSamplePhase], lines 1023-1048: new phase and direction. *)
Definition BKUnitWrapSamplePhase (fuel : nat) (phase min max : Z) : res (Z * Z) :=
  let* length := chk32 (max - min) in
  if s32 phase >=? max then
    let* phase := wrap_down fuel phase max length in Ok (phase, 1)
  else if s32 phase <? min then
    let* phase := wrap_up fuel phase min length in Ok (phase, -1)
  else Ok (phase, 0).

(** [BKUnitCallSampleCallback], lines 216-230: what the callback returns is dropped. *)
Definition BKUnitCallSampleCallback (callback : option Z) : Z :=
  let result := 0 in
  match callback with
  | Some _answer => result
  | None => result
  end.

(** [BKUnitResetSample], lines 1050-1107: the unit and [halt]. *)
Definition BKUnitResetSample (fuel : nat) (u : bkunit) : res (bkunit * bool) :=
  let s := un_sample u in
  let repeatMode := match sm_callback s with
                    | Some _ => s32 (BKUnitCallSampleCallback (sm_callback s))
                    | None => s32 (sm_repeatMode s)
                    end in
  let* (phase, resetDir) := BKUnitWrapSamplePhase fuel (ph_phase (un_phase u)) 0 (s32 (sm_length s)) in
  let '(phase, mode) :=
    if repeatMode =? BK_REPEAT then (phase, resetDir)
    else if repeatMode =? BK_PALINDROME then
      ((if resetDir =? 1 then u32 (sm_length s - phase - 1)
        else if resetDir =? -1 then u32 (sm_length s - phase)
        else phase), - resetDir)
    else (phase, 0) in
  let u := set_phase u phase in
  let count := u32 (sm_repeatCount s + 1) in
  if mode =? 0 then
    Ok (set_mute (set_sm u (s_repeatCount s count)) 1, true)
  else
    let* period := abs32 (sm_period s) in
    Ok (set_sm u (s_repeatCount (s_period s (if mode =? -1 then - period else period)) count), false).

(** The loop over the channels, lines 1138-1148: new last pulses and values added. *)
Fixpoint sample_channels (n : nat) (i : Z) (u : bkunit) (idx : Z) : res (list Z * list Z) :=
  match n with
  | O => Ok (un_lastPulse u, [])
  | S n =>
    match sm_frames (un_sample u) with
    | None => Err ENull
    | Some (frames, base) =>
      let* volume := aget (un_volume u) i in
      let* pulse := aget frames (base + idx + (if sm_numChannels (un_sample u) =? 1 then 0 else i)) in
      let* lastPulse := aget (un_lastPulse u) i in
      let* (delta, chanDelta) := pulse_delta pulse volume lastPulse in
      let* last := aset (un_lastPulse u) i delta in
      let* (last, l) := sample_channels n (i + 1) (set_lastPulse u last) idx in
      Ok (last, chanDelta :: l)
    end
  end.

(** Lines 1150-1154: advance the phase. *)
Definition sample_advance (u : bkunit) : res bkunit :=
  let s := un_sample u in
  let lastTime := sm_timeFrac s in
  let* timeFrac := chk32 (sm_timeFrac s + sm_period s) in
  let phase := u32 (ph_phase (un_phase u) +
                    (Z.shiftr timeFrac BK_FINT20_SHIFT - Z.shiftr lastTime BK_FINT20_SHIFT)) in
  Ok (set_phase (set_sm u (s_timeFrac s (Z.land timeFrac BK_FINT20_FRAC))) phase).

(** Lines 1163-1175: the sustain range. *)
Definition sustain_step (checkBounds : bool) (u : bkunit) : bkunit :=
  let s := un_sample u in
  if checkBounds then
    if sm_period s >? 0 then
      if s32 (ph_phase (un_phase u)) >=? s32 (sm_sustainEnd s) then set_phase u (sm_sustainOffset s) else u
    else
      if s32 (ph_phase (un_phase u)) <? s32 (sm_sustainOffset s) then set_phase u (u32 (sm_sustainEnd s - 1)) else u
  else u.

(** Adds one pulse to every channel. *)
Fixpoint zip_pulses (time : Z) (d : list Z) (l : list (list (Z * Z))) : list (list (Z * Z)) :=
  match d, l with
  | v :: d, p :: l => ((time, v) :: p) :: zip_pulses time d l
  | _, _ => l
  end.

(** The loop of [BKUnitRunSample], lines 1134-1176: new unit, time and pulses.  [time] is
    signed, its comparison with [endTime] unsigned. *)
Fixpoint sample_loop (fuel : nat) (u : bkunit) (numChannels : Z) (checkBounds : bool) (time endTime : Z)
  : res (bkunit * Z * list (list (Z * Z))) :=
  if u32 time <? endTime then
    match fuel with
    | O => Err EFuel
    | S fuel' =>
      let s := un_sample u in
      let idx := u32 (ph_phase (un_phase u) * sm_numChannels s) in
      let* (last, d) := sample_channels (Z.to_nat numChannels) 0 u idx in
      let* at_ := chk32 (time + sm_timeFrac s) in
      let* u := sample_advance (set_lastPulse u last) in
      let ph := s32 (ph_phase (un_phase u)) in
      let* (u, halt) :=
        (if (ph <? 0) || (ph >=? s32 (sm_length (un_sample u)))
         then BKUnitResetSample fuel u else Ok (u, false)) in
      if halt then Ok (u, time, zip_pulses (u32 at_) d (repeat [] (Z.to_nat numChannels)))
      else
        let* next := chk32 (time + BK_FINT20_UNIT) in
        let* (u, t, l) := sample_loop fuel' (sustain_step checkBounds u) numChannels checkBounds next endTime in
        Ok (u, t, zip_pulses (u32 at_) d l)
    end
  else Ok (u, time, repeat [] (Z.to_nat numChannels)).

(** [BKUnitRunSample], lines 1113-1179. *)
Definition BKUnitRunSample (fuel : nat) (u : bkunit) (numChannels endTime : Z)
  : res (bkunit * Z * list (list (Z * Z))) :=
  let s := un_sample u in
  if negb (un_mute u =? 0) then Ok (u, endTime, repeat [] (Z.to_nat numChannels))
  else
    let* d := chk32 (s32 (sm_end s) - s32 (sm_offset s)) in
    let* len := abs32 d in
    if len <? 2 then Ok (u, endTime, repeat [] (Z.to_nat numChannels))
    else
      let* (u, t, l) := sample_loop fuel u numChannels (un_sustain u && negb (un_release u))
                                    (s32 (un_time u)) endTime in
      Ok (u, u32 t, l).

(** [BKUnitRun], lines 1181-1218: the unit (its time is the one passed to
    [BKBufferEnd]) and the pulses of every channel. *)
Definition BKUnitRun (fuel : nat) (u : bkunit) (endTime : Z) : res (bkunit * list (list (Z * Z))) :=
  match un_ctx u with
  | None => Err ENull
  | Some numChannels =>
    let w := un_waveform u in
    let* (u, time, l) :=
      (if un_period u =? 0 then Ok (u, un_time u, repeat [] (Z.to_nat numChannels))
       else if (BK_SQUARE <=? w) && (w <=? BK_CUSTOM) then BKUnitRunWaveform fuel u numChannels endTime
       else if w =? BK_SAMPLE then BKUnitRunSample fuel u numChannels endTime
       else Ok (u, un_time u, repeat [] (Z.to_nat numChannels))) in
    let time := if time <? endTime then endTime else time in
    Ok (set_time u time, l)
  end.

(** [BKUnitEnd], lines 1223-1226. *)
Definition BKUnitEnd (u : bkunit) (time : Z) : bkunit := set_time u (u32 (un_time u - time)).

(** ** Life of a unit *)

(** A unit as left by [BKObjectInit] (all members zero). *)
Definition unit0 : bkunit :=
  mk_unit None 0 0 (repeat 0 (Z.to_nat BK_MAX_CHANNELS)) 0 0 (repeat 0 (Z.to_nat BK_MAX_CHANNELS)) 0
          (mk_phase 0 0 0 0) (mk_sample None 0 0 0 0 0 0 0 0 0 0 None None) false false false.

(** [BKUnitInit], lines 232-251.  The return codes of the two calls are not looked at. *)
Definition BKUnitInit (waveform : Z) : res bkunit :=
  let* (u, _) := BKUnitSetAttr unit0 BK_DUTY_CYCLE BK_DEFAULT_DUTY_CYCLE in
  let* (u, _) := BKUnitSetAttr u BK_WAVEFORM (s32 waveform) in
  Ok (set_sm u (s_timeFrac (s_period (un_sample u) BK_FINT20_UNIT) 0)).

(** [BKUnitAttach], lines 260-283, to a context with [numChannels] channels. *)
Definition BKUnitAttach (u : bkunit) (numChannels deltaTime : Z) : bkunit * Z :=
  match un_ctx u with
  | None => (set_time (set_ctx u (Some numChannels)) deltaTime, 0)
  | Some _ => (u, BK_INVALID_STATE)
  end.

(** [BKUnitDetach], lines 285-309. *)
Definition BKUnitDetach (u : bkunit) : bkunit :=
  match un_ctx u with
  | Some _ => set_time (set_ctx u None) 0
  | None => u
  end.

(** [BKUnitClear], lines 1228-1255. *)
Definition BKUnitClear (u : bkunit) : res bkunit :=
  let* (u, _) := BKUnitSetData u BK_WAVEFORM None in
  let* (u, _) := BKUnitSetData u BK_SAMPLE None in
  let u := set_flags u false false false in
  let u := set_ph u (mk_phase (ph_phase (un_phase u)) 0 0 (ph_count (un_phase u))) in
  let s := un_sample u in
  let end_ := match sm_data s with Some d => w_numFrames d | None => 0 end in
  let s := mk_sample (sm_data s) (sm_numChannels s) (sm_length s) 0 end_ 0 0 0 0 0 BK_FINT20_UNIT
                     (sm_callback s) (sm_frames s) in
  Ok (set_sm u (if 0 >? end_ then s_period s (- BK_FINT20_UNIT) else s)).

(** [BKUnitReset], lines 1257-1267. *)
Definition BKUnitReset (u : bkunit) : res bkunit :=
  let* u := BKUnitClear u in
  Ok (set_lastPulse (set_time (set_phase (set_waveform u 0) 0) 0) (repeat 0 (Z.to_nat BK_MAX_CHANNELS))).

(** What a client can do with a unit.  Values are converted to [BKInt] by the call. *)
Inductive uop :=
| UAttr (attr value : Z)
| UPtr (attr : Z) (ptr : uptr)
| UData (event : option wdata)      (* the data object changes or is disposed of *)
| URun (endTime : Z)
| UEnd (time : Z)
| UAttach (numChannels deltaTime : Z)
| UDetach
| UClear
| UReset.

Definition ustep (fuel : nat) (u : bkunit) (o : uop) : res (bkunit * list (list (Z * Z))) :=
  match o with
  | UAttr attr value => let* (u, _) := BKUnitSetAttr u (u32 attr) (s32 value) in Ok (u, [])
  | UPtr attr ptr => let* (u, _) := BKUnitSetPtr u (u32 attr) ptr in Ok (u, [])
  | UData event => let* (u, _) := unit_data_event u event in Ok (u, [])
  | URun endTime => BKUnitRun fuel u (u32 endTime)
  | UEnd time => Ok (BKUnitEnd u (u32 time), [])
  | UAttach n t => Ok (fst (BKUnitAttach u n (u32 t)), [])
  | UDetach => Ok (BKUnitDetach u, [])
  | UClear => let* u := BKUnitClear u in Ok (u, [])
  | UReset => let* u := BKUnitReset u in Ok (u, [])
  end.

Fixpoint uruns (fuel : nat) (u : bkunit) (ops : list uop) : res (bkunit * list (list (list (Z * Z)))) :=
  match ops with
  | [] => Ok (u, [])
  | o :: ops =>
    let* (u, l) := ustep fuel u o in
    let* (u, ls) := uruns fuel u ops in
    Ok (u, l :: ls)
  end.
