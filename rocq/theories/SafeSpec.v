(** Vocabulary of the statements about programs which never go wrong. *)
From Verif Require Import CInt TimeModel BufferModel DataModel UnitModel UnitSpec InterpModel SequenceModel InstrumentProofs InstrBounds
  TrackModel TrackSpec ContextModel ContextSpec.

(** ** Calls *)

(** Attributes which set volumes: [BK_MASTER_VOLUME] of a track, and the volumes of single
    channels, which a track forwards to its unit. *)
Definition sets_volume (attr : Z) : Prop := attr = BK_MASTER_VOLUME \/ BK_VOLUME_0 <= attr <= BK_VOLUME_7.

(** A call on a track which plays waveforms, with volumes of at most [vol]; all conditions are
    on the arguments:
    - integers are in range of their type, and periods are not [INT_MIN];
    - dividers are at least 1;
    - memory is as large as claimed, an arpeggio has no negative size and notes in range;
    - the depth of a vibrato is at most 512 halftones;
    - data is for waveforms, and sequences are in range. *)
Definition calm_call (fuel : nat) (vol : Z) (o : top) : Prop :=
  match o with
  | OAttr attr value =>
    in_u32 attr = true /\ in_s32 value = true /\
    (attr = BK_PERIOD \/ attr = BK_SAMPLE_PERIOD -> value <> -2147483648) /\
    (attr = BK_ARPEGGIO_DIVIDER \/ attr = BK_EFFECT_DIVIDER \/ attr = BK_INSTRUMENT_DIVIDER -> 1 <= value) /\
    (sets_volume attr -> value <= vol)
  | OPtr attr ptr size =>
    in_u32 attr = true /\ 0 <= size /\
    match ptr with
    | TNull => True
    | TData _ d pitch => attr = BK_WAVEFORM /\ wdata_ok d /\ Z.abs pitch <= MAX_PITCH
    | TInstr _ sqs => attr = BK_INSTRUMENT /\ sequences_ok fuel sqs
    | TInts mem =>
      attr_type attr = BK_EFFECT_TYPE /\ Z.min 3 (size / 4) <= Z.of_nat (length mem) /\
        Forall (fun v => in_s32 v = true) mem /\ (attr = BK_EFFECT_VIBRATO -> Z.abs (nth 1 mem 0) <= MAX_VIBRATO) \/
      attr = BK_ARPEGGIO /\
        (size = 0 \/ exists n notes, mem = n :: notes /\ 0 <= n /\ Z.min 8 n <= Z.of_nat (length notes) /\
                                     Forall (fun v => Z.abs v <= MAX_NOTE) notes)
    | TUnit p => False
    end
  | OData event => forall d, event = Some d -> wdata_ok d
  | OInstrSet slot v so sl =>
    0 <= slot /\ (slot < 4 ->
    match v with
    | VSimple [] | VEnvelope [] => True
    | VSimple l => good fuel (nth (Z.to_nat slot) slot_ranges (0, 0)) (BKSequenceFuncSimpleCreate l so sl)
    | VEnvelope l => exists new code, BKSequenceFuncEnvelopeCreate l so sl = Ok (new, code) /\
        (code = 0 -> match new with Some q => good fuel (nth (Z.to_nat slot) slot_ranges (0, 0)) q | None => True end)
    end)
  | OInstrDispose | OClear => True
  | _ => False
  end.

(** ** Tracks *)

(** A track which was initialised and got calm calls. *)
Definition made (fuel : nat) (vol : Z) (t : track) : Prop := exists w t0 calls ls,
  waveform_phases (s32 w) <> None /\ BKTrackInit fuel w = Ok t0 /\ Forall (calm_call fuel vol) calls /\ truns fuel t0 calls = Ok (t, ls).

(** ** Programs *)

(** The longest period of a clock, 2^41 frames, and the largest number of frames. *)
Definition MAX_CLOCK : Z := 2 ^ 61.
Definition MAX_FRAMES : Z := 2 ^ 40.

(** The callbacks make calm calls, where [vol] is the largest volume of a track. *)
Definition env_calm (fuel : nat) (vol : Z -> Z) (e : env) : Prop := forall id n t,
  Forall (fun c => calm_call fuel (vol (fst c)) (snd c)) (e_calls e id n t) /\ e_next e id n t <= BK_TIME_MAX.

(** A program; tracks [ids] are attached, the volumes of all tracks that were attached since
    the last reset add up to [used], and [frames] frames have been generated since then.
    - Clocks are attached before frames are generated;
    - periods are at most [MAX_CLOCK];
    - tracks are initialised and get calm calls before they are attached, volumes add up to at most [limit];
    - frames are generated while a track is attached, and at most [MAX_FRAMES] of them. *)
Fixpoint calm (fuel : nat) (vol : Z -> Z) (limit : Z) (started : bool) (ids : list Z) (used frames : Z) (ops : list xop) : Prop :=
  match ops with
  | [] => True
  | o :: ops =>
    match o with
    | XAttachClock id period =>
      started = false /\ id <> 0 /\ 0 < period <= MAX_CLOCK /\ calm fuel vol limit started ids used frames ops
    | XAttachTrack id t =>
      0 <= vol id /\ made fuel (vol id) t /\ used + vol id <= limit /\ calm fuel vol limit started (ids ++ [id]) (used + vol id) frames ops
    | XDetachTrack id => calm fuel vol limit started (filter (fun i => negb (i =? id)) ids) used frames ops
    | XTrack id o => calm_call fuel (vol id) o /\ calm fuel vol limit started ids used frames ops
    | XPeriod period => period <= MAX_CLOCK /\ calm fuel vol limit started ids used frames ops
    | XGenerate size =>
      ids <> [] /\ frames + u32 size <= MAX_FRAMES /\ calm fuel vol limit true ids used (frames + u32 size) ops
    | XReset => calm fuel vol limit false ids (fold_right Z.add 0 (map vol ids)) 0 ops
    | XKernel _ | XEnd _ | XRead _ | XGenerateTo _ _ => False
    end
  end.

(** A call yields as many frames in every channel as it was asked for. *)
Definition yields (channels : Z) (o : xop) (l : list (list Z)) : Prop :=
  match o with
  | XGenerate size => Z.of_nat (length l) = channels /\ Forall (fun s => Z.of_nat (length s) = u32 size) l
  | _ => l = []
  end.
