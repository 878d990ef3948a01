(** Vocabulary of the statements about units. *)
From Verif Require Import CInt DataModel UnitModel.

(** ** Output of a unit *)

(** Level of a waveform value at a volume. *)
Definition level (volume pulse : Z) : Z := pulse * volume / 32768.

(** What a channel with a volume is given when the waveform takes the values [raw] at
    their times, the channel being at level [last] before. *)
Fixpoint chan_deltas (volume last : Z) (raw : list (Z * Z)) : list (Z * Z) :=
  match raw with
  | [] => []
  | (t, p) :: raw => (t, level volume p - last) :: chan_deltas volume (level volume p) raw
  end.

(** Level after that. *)
Definition last_level (volume last : Z) (raw : list (Z * Z)) : Z :=
  fold_left (fun _ tp => level volume (snd tp)) raw last.

(** Pulses of two runs, one after the other, for every channel. *)
Fixpoint zip_app (a b : list (list (Z * Z))) : list (list (Z * Z)) :=
  match a, b with
  | x :: a, y :: b => (x ++ y) :: zip_app a b
  | _, _ => []
  end.

(** Sum of the values of pulses; [BKBufferAddPulse] takes them as 16-bit values. *)
Definition sum_values (l : list (Z * Z)) : Z := fold_right (fun tp s => snd tp + s) 0 l.
Definition sum_added (l : list (Z * Z)) : Z := fold_right (fun tp s => s16 (snd tp) + s) 0 l.

(** ** States *)

Definition is_frame (v : Z) : Prop := -32768 <= v <= 32767.

(** A data object a program can have: the memory holds all frames of all channels, at
    most 2^30 values. *)
Definition wdata_ok (d : wdata) : Prop :=
  0 <= w_numFrames d /\
  1 <= w_numChannels d <= 8 /\
  w_numFrames d * w_numChannels d <= 1073741824 /\
  Z.of_nat (length (w_frames d)) = w_numFrames d * w_numChannels d /\
  Forall is_frame (w_frames d).

(** Members hold values of their types. *)
Record unit_typed (u : bkunit) : Prop := mk_typed {
  ty_time : 0 <= un_time u < 4294967296;
  ty_period : 0 <= un_period u < 4294967296;
  ty_wrap : 0 <= ph_wrap (un_phase u) < 4294967296;
  ty_wrapCount : -2147483648 <= ph_wrapCount (un_phase u) < 2147483648
}.

(** Number of phases of the waveforms other than noise, custom and sample. *)
Definition wave_length (w : Z) : Z :=
  if w =? BK_SQUARE then 16 else if w =? BK_TRIANGLE then 32
  else if w =? BK_SAWTOOTH then 7 else if w =? BK_SINE then 32 else 0.

(** [phase] points into the wave table of the unit. *)
Definition phase_good (u : bkunit) (phase : Z) : Prop :=
  0 <= phase /\
  (un_waveform u = BK_NOISE /\ phase < 65536 \/
   un_waveform u = BK_CUSTOM /\ phase < ph_count (un_phase u) \/
   phase < wave_length (un_waveform u)).

(** The table itself. *)
Definition table_good (u : bkunit) : Prop :=
  1 <= un_duty u <= 15 /\
  (un_waveform u = BK_CUSTOM ->
   2 <= ph_count (un_phase u) <= 64 /\
   exists frames, sm_frames (un_sample u) = Some (frames, 0) /\
     ph_count (un_phase u) <= Z.of_nat (length frames) /\ Forall is_frame frames).

(** The frames of the sample of a unit are in memory, and the play range, the sustain range
    and the play position are inside of each other. *)
Record sample_good (u : bkunit) : Prop := mk_sgood {
  sg_frames : exists frames base, sm_frames (un_sample u) = Some (frames, base) /\
    0 <= base /\
    base + sm_length (un_sample u) * sm_numChannels (un_sample u) <= Z.of_nat (length frames) /\
    Z.of_nat (length frames) <= 1073741824 /\ Forall is_frame frames;
  sg_channels : 1 <= sm_numChannels (un_sample u) <= 8;
  sg_ctx : forall n, un_ctx u = Some n ->
    sm_numChannels (un_sample u) = 1 \/ sm_numChannels (un_sample u) = n;
  sg_data : forall d, sm_data (un_sample u) = Some d ->
    w_numChannels d = sm_numChannels (un_sample u);
  sg_length : sm_length (un_sample u) = Z.abs (sm_end (un_sample u) - sm_offset (un_sample u));
  sg_phase : 2 <= sm_length (un_sample u) -> ph_phase (un_phase u) < sm_length (un_sample u);
  sg_sustain : un_sustain u = true ->
    sm_sustainOffset (un_sample u) < sm_sustainEnd (un_sample u) <= sm_length (un_sample u)
}.

(** Every reachable state has well-formed attributes ... *)
Record unit_wf (u : bkunit) : Prop := mk_wf {
  wf_volume : length (un_volume u) = 8%nat /\ Forall (fun v => 0 <= v <= 32767) (un_volume u);
  wf_last : length (un_lastPulse u) = 8%nat /\ Forall is_frame (un_lastPulse u);
  wf_ctx : forall n, un_ctx u = Some n -> 1 <= n <= 8;
  wf_time : 0 <= un_time u < 4294967296;
  wf_period : 0 <= un_period u < 2147483648;
  wf_wrap : 0 <= ph_wrap (un_phase u) < 2147483648 /\
            -2147483648 <= ph_wrapCount (un_phase u) < 2147483648;
  wf_mute : un_mute u = 0 \/ un_mute u = 1;
  wf_phase : 0 <= ph_phase (un_phase u) < 4294967296;
  wf_count : 0 <= ph_count (un_phase u) <= 64;
  wf_data : forall d, sm_data (un_sample u) = Some d -> wdata_ok d;
  wf_frac : 0 <= sm_timeFrac (un_sample u) < 1048576;
  wf_sper : 4096 <= Z.abs (sm_period (un_sample u)) <= 268435456;
  wf_mode : 0 <= sm_repeatMode (un_sample u) <= 2;
  wf_rcount : 0 <= sm_repeatCount (un_sample u) < 4294967296;
  wf_length : 0 <= sm_length (un_sample u) <= 1073741824;
  wf_range : 0 <= sm_offset (un_sample u) <= 1073741824 /\ 0 <= sm_end (un_sample u) <= 1073741824;
  wf_srange : 0 <= sm_sustainOffset (un_sample u) <= 1073741824 /\
              0 <= sm_sustainEnd (un_sample u) <= 1073741824;
  wf_duty : 1 <= un_duty u <= 15;
  wf_wave : un_waveform u = 0 \/ BK_SQUARE <= un_waveform u <= BK_SAMPLE;
  wf_phases : BK_SQUARE <= un_waveform u <= BK_SINE ->
              waveform_phases (un_waveform u) = Some (ph_count (un_phase u))
}.

(** ... and in a safe one the phase points to a value. *)
Definition unit_safe (u : bkunit) : Prop :=
  unit_wf u /\
  (BK_SQUARE <= un_waveform u <= BK_CUSTOM -> table_good u /\ phase_good u (ph_phase (un_phase u))) /\
  (un_waveform u = BK_SAMPLE -> sample_good u).

(** ** Histories *)

(** Arguments a program can pass: pointers to objects of the right kind, data that
    exists, contexts with one to eight channels. *)
Definition ptr_ok (attr : Z) (ptr : uptr) : Prop :=
  match ptr with
  | PNull => True
  | PCallback _ => attr = BK_SAMPLE_CALLBACK
  | PData d => (attr = BK_WAVEFORM \/ attr = BK_SAMPLE) /\ wdata_ok d
  | PRange a b => (attr = BK_SAMPLE_RANGE \/ attr = BK_SAMPLE_SUSTAIN_RANGE) /\
                  in_s32 a = true /\ in_s32 b = true
  end.

Definition uop_ok (o : uop) : Prop :=
  match o with
  | UAttr attr value => in_u32 attr = true /\ in_s32 value = true
  | UPtr attr ptr => in_u32 attr = true /\ (ptr = PNull \/ attr = BK_WAVEFORM \/ attr = BK_SAMPLE \/
                     attr = BK_SAMPLE_RANGE \/ attr = BK_SAMPLE_SUSTAIN_RANGE \/ attr = BK_SAMPLE_CALLBACK) /\
                     ptr_ok attr ptr
  | UData (Some d) => wdata_ok d
  | UData None => True
  | URun t | UEnd t => in_u32 t = true
  | UAttach n t => 1 <= n <= 8 /\ in_u32 t = true
  | UDetach | UClear | UReset => True
  end.

(** A bound of a range as the unit takes it: negative values count from the end. *)
Definition range_bound (numFrames v : Z) : Z :=
  Z.max 0 (Z.min numFrames (if v <? 0 then v + numFrames + 1 else v)).

(** Uses that stay inside of what the unit can handle (findings show that each of the
    restrictions is needed):
    - periods are not [INT_MIN];
    - a sustain range is inside the play range;
    - the release flag is only set while a sample is played, and only to jump behind a
      sustain range that does not reach up to the end of the play range;
    - a unit playing multi-channel data is only attached to contexts with that many
      channels;
    - samples repeated as palindrome are played at a speed of less than one sample
      length per output frame. *)
Definition uop_careful (u : bkunit) (o : uop) : Prop :=
  match o with
  | UAttr attr value =>
    (attr = BK_PERIOD \/ attr = BK_SAMPLE_PERIOD -> value <> -2147483648) /\
    (attr = BK_FLAG_RELEASE -> value <> 0 -> un_sustain u = true -> un_jump u = true ->
     un_waveform u = BK_SAMPLE /\ sm_sustainEnd (un_sample u) < sm_length (un_sample u))
  | UPtr attr (PRange a b) =>
    attr = BK_SAMPLE_SUSTAIN_RANGE ->
    forall d, sm_data (un_sample u) = Some d ->
    range_bound (w_numFrames d) a <= sm_length (un_sample u) /\
    range_bound (w_numFrames d) b <= sm_length (un_sample u)
  | UAttach n _ => sm_numChannels (un_sample u) <= 1 \/ sm_numChannels (un_sample u) = n
  | URun _ =>
    un_waveform u = BK_SAMPLE -> sm_repeatMode (un_sample u) = BK_PALINDROME ->
    Z.abs (sm_period (un_sample u)) <= (sm_length (un_sample u) - 1) * 1048576
  | _ => True
  end.

(** Times are such that no time of the unit leaves its type. *)
Definition uop_timely (fuel : nat) (u : bkunit) (o : uop) : Prop :=
  match o with
  | URun t => un_ctx u <> None /\ t + un_period u < 4294967296 /\ t + 1048576 < 2147483648 /\
              t + 1000 <= Z.of_nat fuel
  | _ => True
  end.

(** All steps of a history meet a condition on the unit and the step. *)
Fixpoint all_steps (P : bkunit -> uop -> Prop) (fuel : nat) (u : bkunit) (ops : list uop) : Prop :=
  match ops with
  | [] => True
  | o :: ops => P u o /\ match ustep fuel u o with
                         | Ok (u, _) => all_steps P fuel u ops
                         | Err _ => True
                         end
  end.

(** Sum of the values a channel is given during a history. *)
Definition history_sum (k : nat) (ls : list (list (list (Z * Z)))) : Z :=
  fold_right (fun l s => sum_values (nth k l []) + s) 0 ls.

(** ** Values of waveforms *)

(** All values the waveform of the unit can take are between [lo] and [hi]. *)
Definition wave_range (u : bkunit) (lo hi : Z) : Prop :=
  un_waveform u = BK_SQUARE /\ un_duty u <= 8 /\ lo <= 0 /\ 32767 <= hi \/
  un_waveform u = BK_SQUARE /\ 9 <= un_duty u /\ lo <= -32767 /\ 0 <= hi \/
  un_waveform u = BK_SAWTOOTH /\ lo <= 0 /\ 32766 <= hi \/
  (un_waveform u = BK_TRIANGLE \/ un_waveform u = BK_NOISE \/ un_waveform u = BK_SINE) /\
  lo <= -16384 /\ 16384 <= hi \/
  (un_waveform u = BK_CUSTOM \/ un_waveform u = BK_SAMPLE) /\ lo <= 0 <= hi /\
  (forall frames base, sm_frames (un_sample u) = Some (frames, base) -> Forall (fun v => lo <= v <= hi) frames) \/
  un_waveform u = 0 /\ lo <= 0 <= hi.

(** The 16-bit feedback shift register with taps 0, 2, 3 and 5. *)
Definition lfsr_next (p : Z) : Z :=
  p / 2 + 32768 * Z.b2z (xorb (xorb (xorb (Z.testbit p 0) (Z.testbit p 2)) (Z.testbit p 3)) (Z.testbit p 5)).

(** ** Attributes *)

(** Attributes that can be set, and the values they take. *)
Definition phases (u : bkunit) : Z := if un_waveform u =? BK_SAMPLE then sm_length (un_sample u) else ph_count (un_phase u).

Definition is_table_wave (v : Z) : Prop :=
  v = 0 \/ v = BK_SQUARE \/ v = BK_TRIANGLE \/ v = BK_NOISE \/ v = BK_SAWTOOTH \/ v = BK_SINE.

(** [attr_value u attr value v]: after [attr] was set to [value] it is [v]. *)
Inductive attr_value (u : bkunit) : Z -> Z -> Z -> Prop :=
| av_duty value : attr_value u BK_DUTY_CYCLE value (Z.max 1 (Z.min 15 value))
| av_wave value : is_table_wave value -> attr_value u BK_WAVEFORM value value
| av_phase value : un_waveform u <> BK_SAMPLE -> 1 <= phases u ->
    attr_value u BK_PHASE value (Z.max 0 (Z.min (phases u - 1) value))
| av_sample_phase value : un_waveform u = BK_SAMPLE -> 1 <= phases u -> 0 <= value ->
    attr_value u BK_PHASE value (Z.min (phases u - 1) value)
| av_sample_start value : un_waveform u = BK_SAMPLE -> 1 <= phases u -> value < 0 ->
    attr_value u BK_PHASE value
      (if sm_offset (un_sample u) <? sm_end (un_sample u) then 0 else phases u - 1)
| av_wrap value : attr_value u BK_PHASE_WRAP value (if value =? 0 then 0 else Z.max 2 value)
| av_period value : value <> -2147483648 -> attr_value u BK_PERIOD value (Z.abs value)
| av_volume k value : 0 <= k < 8 ->
    attr_value u (BK_VOLUME_0 + k) value (Z.max 0 (Z.min 32767 value))
| av_mute value : attr_value u BK_MUTE value (if value =? 0 then 0 else 1)
| av_repeat value : attr_value u BK_SAMPLE_REPEAT value
    (if (value =? BK_REPEAT) || (value =? BK_PALINDROME) then value else BK_NO_REPEAT)
| av_sper value : value <> -2147483648 ->
    attr_value u BK_SAMPLE_PERIOD value (Z.max 4096 (Z.min 268435456 (Z.abs value)))
| av_immed value : attr_value u BK_SAMPLE_IMMED_RELEASE value (if value =? 0 then 0 else 1)
| av_release value : attr_value u BK_FLAG_RELEASE value
    (if un_sustain u then if value =? 0 then 0 else 1 else if un_release u then 1 else 0).

(** Setting [attr] may also change [other]: setting the waveform changes phase and number
    of phases, setting the duty cycle or the phase wrap can reset the phase, and a release
    can jump behind the sustain range. *)
Definition attr_touches (attr other : Z) : Prop :=
  other = attr \/
  attr = BK_WAVEFORM /\ (other = BK_PHASE \/ other = BK_NUM_PHASES) \/
  (attr = BK_DUTY_CYCLE \/ attr = BK_PHASE_WRAP \/ attr = BK_FLAG_RELEASE) /\ other = BK_PHASE.
