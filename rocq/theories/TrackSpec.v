(** Vocabulary of the statements about tracks. *)
From Verif Require Import CInt DataModel UnitModel UnitSpec InterpModel InterpProofs IntervalProofs SequenceModel
  InstrumentProofs InstrBounds UnitCount SlideIn ToneModel TrackModel.

(** ** States *)

(** Largest note, largest pitch and largest depth of a vibrato. *)
Definition MAX_NOTE : Z := 100663296.
Definition MAX_PITCH : Z := 50331648.
Definition MAX_VIBRATO : Z := 536870912.

Definition div_ok (d : dstate) : Prop := 1 <= ds_divider d < 2147483648 /\ 0 <= ds_counter d < ds_divider d.

Definition arp_ok (a : arpstate) : Prop :=
  length (ar_notes a) = 8%nat /\ 0 <= ar_count a <= 8 /\ 0 <= ar_offset a < Z.max 1 (ar_count a) /\
  Z.abs (ar_delta a) <= MAX_NOTE /\ Forall (fun v => Z.abs v <= MAX_NOTE) (ar_notes a).

(** The instrument has four slots with sequences in range (see [slot_ranges]), and the
    state is one these sequences can be in. *)
Definition instr_ok (fuel : nat) (instr : option (Z * instrument)) (s : istate) : Prop :=
  0 <= is_phase s <= 2 /\
  exists sqs, Forall3 (sok fuel) slot_ranges sqs (is_states s) /\
    match instr with
    | Some (_, i) => i = BKInstrumentUpdateNumSequences sqs
    | None => sqs = repeat None 4
    end.

Record track_ok (fuel : nat) (t : track) : Prop := mk_track_ok {
  tk_unit : unit_good (tr_unit t);
  tk_arpDiv : div_ok (tr_arpDiv t);
  tk_instrDiv : div_ok (tr_instrDiv t);
  tk_effDiv : div_ok (tr_effDiv t);
  tk_waveform : in_s32 (tr_waveform t) = true;
  tk_duty : 0 <= tr_duty t <= 15;
  tk_samplePitch : Z.abs (tr_samplePitch t) <= MAX_PITCH;
  tk_master : 0 <= tr_master t <= 32767;
  tk_volume : slide_in 15 0 32767 (tr_volume t);
  tk_panning : slide_in 15 (-32767) 32767 (tr_panning t);
  tk_curNote : -1 <= tr_curNote t <= MAX_NOTE;
  tk_note : slide_in 0 0 MAX_NOTE (tr_note t);
  tk_pitch : Z.abs (tr_pitch t) <= MAX_PITCH;
  tk_tremolo : interval_inv 14 (tr_tremolo t);
  tk_tremoloDelta : slide_in 15 0 32767 (tr_tremoloDelta t);
  tk_tremoloSteps : slide_in 14 0 65536 (tr_tremoloSteps t);
  tk_vibrato : interval_inv 0 (tr_vibrato t);
  tk_vibratoDelta : slide_in 0 (- MAX_VIBRATO) MAX_VIBRATO (tr_vibratoDelta t);
  tk_vibratoSteps : slide_in 14 0 65536 (tr_vibratoSteps t);
  tk_arpeggio : arp_ok (tr_arpeggio t);
  tk_instr : instr_ok fuel (tr_instr t) (tr_istate t);
  tk_flag : has t FInstr = match tr_instr t with Some _ => true | None => false end
}.

(** ** Histories *)

(** A release is only allowed while a sample is played whose sustain range ends before its
    end, when it makes the sample jump. *)
Definition release_ok (u : bkunit) : Prop :=
  un_sustain u = true -> un_jump u = true ->
  un_waveform u = BK_SAMPLE /\ sm_sustainEnd (un_sample u) < sm_length (un_sample u).

(** Sequences an instrument of a track can have. *)
Definition sequences_ok (fuel : nat) (sqs : list (option sequence)) : Prop :=
  Forall2 (fun r sq => match sq with Some q => good fuel r q | None => True end) slot_ranges sqs.

(** What a program can do with a track in a state, and what its context does:
    - integers are in range of their type;
    - periods are not [INT_MIN], and a note is only released if [release_ok];
    - dividers are at least 1;
    - memory is as large as claimed, an arpeggio has no negative size and notes in range;
    - the depth of a vibrato is at most 512 halftones;
    - data and instruments are valid and in range. *)
Definition top_ok (fuel : nat) (t : track) (o : top) : Prop :=
  match o with
  | OAttr attr value =>
    in_u32 attr = true /\ in_s32 value = true /\
    (attr = BK_PERIOD \/ attr = BK_SAMPLE_PERIOD -> value <> -2147483648) /\
    (attr = BK_FLAG_RELEASE /\ value <> 0 \/ attr = BK_NOTE /\ value = BK_NOTE_RELEASE -> release_ok (tr_unit t)) /\
    (attr = BK_ARPEGGIO_DIVIDER \/ attr = BK_EFFECT_DIVIDER \/ attr = BK_INSTRUMENT_DIVIDER -> 1 <= value)
  | OPtr attr ptr size =>
    in_u32 attr = true /\ 0 <= size /\
    match ptr with
    | TNull => True
    | TData _ d pitch => (attr = BK_WAVEFORM \/ attr = BK_SAMPLE) /\ wdata_ok d /\ Z.abs pitch <= MAX_PITCH
    | TInstr _ sqs => attr = BK_INSTRUMENT /\ sequences_ok fuel sqs
    | TInts mem =>
      attr_type attr = BK_EFFECT_TYPE /\ Z.min 3 (size / 4) <= Z.of_nat (length mem) /\
        Forall (fun v => in_s32 v = true) mem /\ (attr = BK_EFFECT_VIBRATO -> Z.abs (nth 1 mem 0) <= MAX_VIBRATO) \/
      attr = BK_ARPEGGIO /\
        (size = 0 \/ exists n notes, mem = n :: notes /\ 0 <= n /\ Z.min 8 n <= Z.of_nat (length notes) /\
                                     Forall (fun v => Z.abs v <= MAX_NOTE) notes)
    | TUnit p => attr_type attr <> BK_EFFECT_TYPE /\ attr <> BK_WAVEFORM /\ attr <> BK_SAMPLE /\ attr <> BK_INSTRUMENT /\
                 attr <> BK_ARPEGGIO /\ uop_ok (UPtr attr p) /\ uop_careful (tr_unit t) (UPtr attr p)
    end
  | OData event => forall d, event = Some d -> wdata_ok d
  | OInstrSet slot v so sl =>
    0 <= slot /\ (slot < 4 ->
    match v with
    | VSimple [] | VEnvelope [] => True
    | VSimple l => good fuel (nth (Z.to_nat slot) slot_ranges (0, 0)) (BKSequenceFuncSimpleCreate l so sl)
    | VEnvelope l => exists new code, BKSequenceFuncEnvelopeCreate l so sl = Ok (new, code) /\
        (code = 0 -> match new with Some q => good fuel (nth (Z.to_nat slot) slot_ranges (0, 0)) q | None => True end)
    end)
  | ORun endTime =>
    in_u32 endTime = true /\
    forall t', BKTrackUpdateUnit t = Ok t' ->
      uop_careful (tr_unit t') (URun endTime) /\ uop_timely fuel (tr_unit t') (URun endTime)
  | OEnd time => in_u32 time = true
  | OAttach n rate time => 1 <= n <= 8 /\ in_u32 time = true /\ uop_careful (tr_unit t) (UAttach n time)
  | OInstrDispose | OTick | ODetach | OClear | OReset => True
  end.

Fixpoint all_top_ok (fuel : nat) (t : track) (ops : list top) : Prop :=
  match ops with
  | [] => True
  | o :: ops => top_ok fuel t o /\ match tstep fuel t o with
                                   | Ok (t, _) => all_top_ok fuel t ops
                                   | Err _ => True
                                   end
  end.

(** The states a track can get into from its initialisation on. *)
Definition reachable (fuel : nat) (t : track) : Prop :=
  exists waveform ops t0 ls, waveform_phases (s32 waveform) <> None /\ BKTrackInit fuel waveform = Ok t0 /\
    all_top_ok fuel t0 ops /\ truns fuel t0 ops = Ok (t, ls).

(** ** Playing *)

Fixpoint ticks (fuel : nat) (k : nat) (t : track) : res track :=
  match k with
  | O => Ok t
  | S k => let* t := BKTrackTick fuel t in ticks fuel k t
  end.

(** The period of the unit is the one of a note (a number of half tones in units of 1/2^20) at
    the sample rate of the context. *)
Definition unit_plays (t : track) (note : Z) : Prop :=
  if tr_waveform t =? BK_SAMPLE then
    exists p, BKLog2PeriodLookup (note + tr_samplePitch t) = Ok p /\ BKTrackGetAttr t BK_SAMPLE_PERIOD = Ok (0, Some p)
  else
    exists p, BKTonePeriodLookup note (tr_rate t) = Ok p /\
      (2 <= ph_count (un_phase (tr_unit t)) ->
       BKTrackGetAttr t BK_PERIOD = Ok (0, Some (p / Z.min 64 (ph_count (un_phase (tr_unit t)))))).

