(** Model of BKSequence.c (value sequences and envelopes) and BKInstrument.c.

    Simplifications: a sequence is a record with the list of its values;
    [length] is the length of that list and is less than 2^28, so that the
    byte sizes computed in [BKInt] do not overflow.  Ownership of the values is
    modelled separately (last section).  The list of users of a sequence
    ([stateList] of BKSequence, used by [BKSequenceStateSetSequence] only, which
    nothing in the library calls) is not modelled. *)
From Verif Require Import CInt.

(** BKSequence.h lines 37-64. *)
Definition BK_SEQUENCE_PHASE_MUTE : Z := 0.
Definition BK_SEQUENCE_PHASE_ATTACK : Z := 1.
Definition BK_SEQUENCE_PHASE_RELEASE : Z := 2.
Definition BK_SEQUENCE_RETURN_NONE : Z := 0.
Definition BK_SEQUENCE_RETURN_STEP : Z := 1.
Definition BK_SEQUENCE_RETURN_REPEAT : Z := 2.
Definition BK_SEQUENCE_RETURN_FINISH : Z := 4.
Definition BK_SEQUENCE_STEP_MAX : Z := 0.
Definition BK_SEQUENCE_STEP_DIVIDED : Z := 1.

(** [BKSequencePhase], BKSequence.h lines 90-94. *)
Record sphase : Type := mk_sphase { ph_steps : Z; ph_value : Z }.

(** [BKSequence], BKSequence.h lines 99-110; [funcs] and [values] are the constructor. *)
Inductive values : Type := VSimple (l : list Z) | VEnvelope (l : list sphase).
Record sequence : Type := mk_sequence {
  sq_values : values; sq_length : Z; sq_sustainOffset : Z; sq_sustainLength : Z; sq_fracShift : Z }.

(** [BKSequenceState], BKSequence.h lines 115-127, without links. *)
Record sstate : Type := mk_sstate {
  st_phase : Z; st_steps : Z; st_delta : Z; st_offset : Z; st_value : Z; st_shiftedValue : Z; st_endValue : Z }.
Definition sstate_zero : sstate := mk_sstate 0 0 0 0 0 0 0.

Definition st_set_phase st x := mk_sstate x (st_steps st) (st_delta st) (st_offset st) (st_value st) (st_shiftedValue st) (st_endValue st).
Definition st_set_steps st x := mk_sstate (st_phase st) x (st_delta st) (st_offset st) (st_value st) (st_shiftedValue st) (st_endValue st).
Definition st_set_delta st x := mk_sstate (st_phase st) (st_steps st) x (st_offset st) (st_value st) (st_shiftedValue st) (st_endValue st).
Definition st_set_offset st x := mk_sstate (st_phase st) (st_steps st) (st_delta st) x (st_value st) (st_shiftedValue st) (st_endValue st).
Definition st_set_value st x := mk_sstate (st_phase st) (st_steps st) (st_delta st) (st_offset st) x (st_shiftedValue st) (st_endValue st).
Definition st_set_shifted st x := mk_sstate (st_phase st) (st_steps st) (st_delta st) (st_offset st) (st_value st) x (st_endValue st).
Definition st_set_end st x := mk_sstate (st_phase st) (st_steps st) (st_delta st) (st_offset st) (st_value st) (st_shiftedValue st) x.

(** ** Value sequences *)

(** [BKSequenceFuncSimpleCreate], BKSequence.c lines 3-33.  Both sustain
    parameters are [BKUInt] (so negative ones are large); allocation succeeds. *)
Definition BKSequenceFuncSimpleCreate (vals : list Z) (sustainOffset sustainLength : Z) : sequence :=
  let length := Z.of_nat (length vals) in
  let sustainOffset := BKClamp (u32 sustainOffset) 0 length in
  let sustainLength := BKClamp (u32 sustainLength) 0 (u32 (length - sustainOffset)) in
  mk_sequence (VSimple vals) length sustainOffset sustainLength 0.

(** [BKSequenceFuncSimpleSetPhase], BKSequence.c lines 35-72. *)
Definition BKSequenceFuncSimpleSetPhase (vals : list Z) (sq : sequence) (st : sstate) (phase : Z) : res (sstate * Z) :=
  let go (offset : Z) :=
    if offset <? sq_length sq then
      let* v := aget vals offset in
      Ok (st_set_phase (st_set_value (st_set_offset st offset) v) phase, BK_SEQUENCE_RETURN_NONE)
    else Ok (st_set_phase (st_set_offset st BK_INT_MAX) phase, BK_SEQUENCE_RETURN_FINISH) in
  if phase =? BK_SEQUENCE_PHASE_MUTE then go (sq_length sq)
  else if phase =? BK_SEQUENCE_PHASE_ATTACK then go 0
  else if phase =? BK_SEQUENCE_PHASE_RELEASE then
    let* off := chk32 (sq_sustainOffset sq + sq_sustainLength sq) in go off
  else Ok (st, BK_INVALID_ATTRIBUTE).

(** [BKSequenceFuncSimpleStep], BKSequence.c lines 74-105; [level] is unsigned. *)
Definition BKSequenceFuncSimpleStep (vals : list Z) (sq : sequence) (st : sstate) (level : Z) : res (sstate * Z) :=
  if level <? BK_SEQUENCE_STEP_DIVIDED then Ok (st, BK_SEQUENCE_RETURN_NONE) else
  if st_offset st =? BK_INT_MAX then Ok (st, BK_SEQUENCE_RETURN_NONE) else
  let* sustainEnd := chk32 (sq_sustainOffset sq + sq_sustainLength sq) in
  let '(st, result) :=
    if (st_phase st =? BK_SEQUENCE_PHASE_ATTACK) && (st_offset st >=? sustainEnd)
    then (st_set_offset st (sq_sustainOffset sq), BK_SEQUENCE_RETURN_REPEAT)
    else (st, BK_SEQUENCE_RETURN_STEP) in
  if st_offset st <? sq_length sq then
    let* v := aget vals (st_offset st) in
    let* off := chk32 (st_offset st + 1) in
    Ok (st_set_offset (st_set_value st v) off, result)
  else Ok (st_set_offset st BK_INT_MAX, BK_SEQUENCE_RETURN_FINISH).

(** [BKSequenceFuncSimpleSetValue], BKSequence.c lines 107-112. *)
Definition BKSequenceFuncSimpleSetValue (st : sstate) (value : Z) : sstate := st_set_value st value.

(** ** Envelopes *)

(** [BKSequencePhaseGetMaxAbsValue], BKSequence.c lines 150-158. *)
Fixpoint BKSequencePhaseGetMaxAbsValue (phases : list sphase) (maxValue : Z) : res Z :=
  match phases with
  | [] => Ok maxValue
  | p :: phases =>
    let* a := chk32 (BKAbs (ph_value p)) in
    BKSequencePhaseGetMaxAbsValue phases (BKMax maxValue a)
  end.

(** Loop of [BKSequencePhaseGetFracShift], BKSequence.c lines 171-172. *)
Fixpoint frac_shift_loop (fuel : nat) (maxValue shift : Z) : Z :=
  match fuel with
  | O => shift
  | S fuel => if (Z.shiftl 1 shift <=? maxValue) && (shift <? 30) then frac_shift_loop fuel maxValue (shift + 1) else shift
  end.
(** [BKSequencePhaseGetFracShift], BKSequence.c lines 164-177. *)
Definition BKSequencePhaseGetFracShift (phases : list sphase) : res Z :=
  let* maxValue := BKSequencePhaseGetMaxAbsValue phases 0 in
  Ok (30 - frac_shift_loop 31 maxValue 0).

(** Loop of [BKSequenceEnvelopeCheckValues], BKSequence.c lines 190-191; the sum
    is converted from [BKUInt] to [BKInt] in every iteration. *)
Fixpoint steps_sum (phases : list sphase) (i : Z) (n : nat) (steps : Z) : res Z :=
  match n with
  | O => Ok steps
  | S n => let* p := aget phases i in steps_sum phases (i + 1) n (s32 (u32 (steps + ph_steps p)))
  end.
(** [BKSequenceEnvelopeCheckValues], BKSequence.c lines 182-197. *)
Definition BKSequenceEnvelopeCheckValues (phases : list sphase) (length sustainOffset sustainLength : Z) : res Z :=
  if sustainOffset =? length then Ok 0 else
  let* steps := steps_sum phases sustainOffset (Z.to_nat sustainLength) 0 in
  if steps =? 0 then Ok BK_INVALID_VALUE else Ok 0.

(** [BKSequenceFuncEnvelopeCreate], BKSequence.c lines 199-229. *)
Definition BKSequenceFuncEnvelopeCreate (phases : list sphase) (sustainOffset sustainLength : Z) : res (option sequence * Z) :=
  let length := Z.of_nat (length phases) in
  let sustainOffset := BKClamp (u32 sustainOffset) 0 length in
  let sustainLength := BKClamp (u32 sustainLength) 0 (u32 (length - sustainOffset)) in
  let* code := BKSequenceEnvelopeCheckValues phases length sustainOffset sustainLength in
  if negb (code =? 0) then Ok (None, BK_INVALID_VALUE) else
  let* fs := BKSequencePhaseGetFracShift phases in
  Ok (Some (mk_sequence (VEnvelope phases) length sustainOffset sustainLength fs), 0).

(** C division truncates towards zero; [INT_MIN / -1] overflows. *)
Definition cdiv (a b : Z) : res Z := if b =? 0 then Err EDiv0 else chk32 (Z.quot a b).
(** [value << fracShift] of a signed value. *)
Definition shl (a s : Z) : res Z := chk32 (a * 2 ^ s).

(** Loading of a phase, BKSequence.c lines 260-288: one pass of the loop without
    the part for running steps.  The last component tells whether the loop is left. *)
Definition env_load (phases : list sphase) (sq : sequence) (sustainEnd : Z) (st : sstate) (result : Z) : res (sstate * Z * bool) :=
  let '(st, result) :=
    if (st_phase st =? BK_SEQUENCE_PHASE_ATTACK) && (st_offset st >=? sustainEnd)
    then (st_set_offset st (sq_sustainOffset sq), BK_SEQUENCE_RETURN_REPEAT)
    else (st, result) in
  if st_offset st <? sq_length sq then
    let* p := aget phases (st_offset st) in
    if negb (ph_steps p =? 0) then
      let steps := s32 (ph_steps p) in
      let* e := shl (ph_value p) (sq_fracShift sq) in
      let* diff := chk32 (e - st_shiftedValue st) in
      let* delta := cdiv diff steps in
      let st := st_set_delta (st_set_end (st_set_steps st steps) e) delta in
      Ok (st_set_value st (Z.shiftr (st_shiftedValue st) (sq_fracShift sq)), result, negb (steps =? 0))
    else
      let* v := shl (ph_value p) (sq_fracShift sq) in
      let* off := chk32 (st_offset st + 1) in
      let st := st_set_offset (st_set_steps (st_set_shifted st v) 0) off in
      Ok (st_set_value st (Z.shiftr (st_shiftedValue st) (sq_fracShift sq)), result, false)
  else Ok (st_set_offset st BK_INT_MAX, BK_SEQUENCE_RETURN_FINISH, true).

(** The loop of [BKSequenceFuncEnvelopeStep], BKSequence.c lines 244-290. *)
Fixpoint env_loop (fuel : nat) (phases : list sphase) (sq : sequence) (sustainEnd : Z) (st : sstate) (result : Z) : res (sstate * Z) :=
  match fuel with
  | O => Err EFuel
  | S fuel =>
    let* (st, brk) :=
      if negb (st_steps st =? 0) then
        let* steps := chk32 (st_steps st - 1) in
        let st := st_set_steps st steps in
        if steps >? 0 then
          let* sh := chk32 (st_shiftedValue st + st_delta st) in
          let st := st_set_shifted st sh in
          Ok (st_set_value st (Z.shiftr sh (sq_fracShift sq)), true)
        else
          let st := st_set_shifted st (st_endValue st) in
          let st := st_set_value st (Z.shiftr (st_shiftedValue st) (sq_fracShift sq)) in
          let* off := chk32 (st_offset st + 1) in
          Ok (st_set_offset st off, false)
      else Ok (st, false) in
    if brk : bool then Ok (st, result) else
    let* (st, result, stop) := env_load phases sq sustainEnd st result in
    if (stop : bool) then Ok (st, result)
    else if st_steps st =? 0 then env_loop fuel phases sq sustainEnd st result
    else Ok (st, result)
  end.

(** [BKSequenceFuncEnvelopeStep], BKSequence.c lines 231-293; [level] is unsigned,
    so the first test is never true. *)
Definition BKSequenceFuncEnvelopeStep (fuel : nat) (phases : list sphase) (sq : sequence) (st : sstate) (level : Z) : res (sstate * Z) :=
  if level <? BK_SEQUENCE_STEP_MAX then Ok (st, BK_SEQUENCE_RETURN_NONE) else
  if st_offset st =? BK_INT_MAX then Ok (st, BK_SEQUENCE_RETURN_NONE) else
  let* sustainEnd := chk32 (sq_sustainOffset sq + sq_sustainLength sq) in
  env_loop fuel phases sq sustainEnd st BK_SEQUENCE_RETURN_STEP.

(** [BKSequenceFuncEnvelopeSetPhase], BKSequence.c lines 295-342. *)
Definition BKSequenceFuncEnvelopeSetPhase (fuel : nat) (phases : list sphase) (sq : sequence) (st : sstate) (phase : Z) : res (sstate * Z) :=
  let finish (p : sstate * Z) :=
    let '(st, result) := p in
    if (result =? BK_SEQUENCE_RETURN_NONE) && (st_offset st >=? sq_length sq)
    then (st_set_offset st (sq_length sq), BK_SEQUENCE_RETURN_FINISH)
    else (st, result) in
  if phase =? BK_SEQUENCE_PHASE_MUTE then
    let* sh := shl (st_value st) (sq_fracShift sq) in
    Ok (finish (mk_sstate BK_SEQUENCE_PHASE_MUTE 0 0 (sq_length sq) (st_value st) sh 0, BK_SEQUENCE_RETURN_NONE))
  else if phase =? BK_SEQUENCE_PHASE_ATTACK then
    let st := st_set_phase (st_set_offset (st_set_steps st 0) 0) BK_SEQUENCE_PHASE_ATTACK in
    let* r := BKSequenceFuncEnvelopeStep fuel phases sq st 0 in
    Ok (finish r)
  else if phase =? BK_SEQUENCE_PHASE_RELEASE then
    let* off := chk32 (sq_sustainOffset sq + sq_sustainLength sq) in
    let st := st_set_phase (st_set_offset (st_set_steps st 0) off) BK_SEQUENCE_PHASE_RELEASE in
    let* r := BKSequenceFuncEnvelopeStep fuel phases sq st 0 in
    Ok (finish r)
  else Ok (st, BK_INVALID_ATTRIBUTE).

(** [BKSequenceFuncEnvelopeSetValue], BKSequence.c lines 344-355. *)
Definition BKSequenceFuncEnvelopeSetValue (sq : sequence) (st : sstate) (value : Z) : res sstate :=
  let* sh := shl value (sq_fracShift sq) in
  let st := st_set_shifted (st_set_value st value) sh in
  if negb (st_steps st =? 0) then
    let* diff := chk32 (st_endValue st - sh) in
    let* delta := cdiv diff (st_steps st) in
    Ok (st_set_delta st delta)
  else Ok st.

(** ** Dispatch *)

(** [BKSequenceStateSetPhase], BKSequence.c lines 459-465, [BKSequenceStateStep],
    lines 467-473, [BKSequenceStateSetValue], lines 475-483.  [None] is a state
    without sequence. *)
Definition BKSequenceStateSetPhase (fuel : nat) (sq : option sequence) (st : sstate) (phase : Z) : res (sstate * Z) :=
  match sq with
  | None => Ok (st, BK_INVALID_STATE)
  | Some sq =>
    match sq_values sq with
    | VSimple l => BKSequenceFuncSimpleSetPhase l sq st phase
    | VEnvelope l => BKSequenceFuncEnvelopeSetPhase fuel l sq st phase
    end
  end.
Definition BKSequenceStateStep (fuel : nat) (sq : option sequence) (st : sstate) (level : Z) : res (sstate * Z) :=
  match sq with
  | None => Ok (st, BK_INVALID_STATE)
  | Some sq =>
    match sq_values sq with
    | VSimple l => BKSequenceFuncSimpleStep l sq st level
    | VEnvelope l => BKSequenceFuncEnvelopeStep fuel l sq st level
    end
  end.
Definition BKSequenceStateSetValue (sq : option sequence) (st : sstate) (value : Z) : res sstate :=
  let* st :=
    match sq with
    | None => Ok st
    | Some sq =>
      match sq_values sq with
      | VSimple _ => Ok (BKSequenceFuncSimpleSetValue st value)
      | VEnvelope _ => BKSequenceFuncEnvelopeSetValue sq st value
      end
    end in
  Ok (st_set_value st value).

(** ** Instruments *)

Definition BK_MAX_SEQUENCES : nat := 4.
(** [sequenceDefaultValue], BKInstrument.c lines 31-37. *)
Definition sequenceDefaultValue : list Z := [BK_MAX_VOLUME; 0; 0; 0].

(** [BKInstrument], BKInstrument.h lines 64-70: four slots and their used number.
    [BKInstrumentState], lines 52-62: one state attached to the instrument;
    [is_muted] counts calls of the callback with [BK_INSTR_STATE_EVENT_MUTE]. *)
Record instrument : Type := mk_instrument { in_numSequences : Z; in_sequences : list (option sequence) }.
Record istate : Type := mk_istate { is_phase : Z; is_numActive : Z; is_states : list sstate; is_muted : Z }.

(** [BKInstrumentUpdateNumSequences], BKInstrument.c lines 149-159. *)
Fixpoint num_sequences (l : list (option sequence)) (i n : Z) : Z :=
  match l with
  | [] => n
  | Some _ :: l => num_sequences l (i + 1) (BKMax n (i + 1))
  | None :: l => num_sequences l (i + 1) n
  end.
Definition BKInstrumentUpdateNumSequences (l : list (option sequence)) : instrument := mk_instrument (num_sequences l 0 0) l.

(** [BKInstrumentStateSetDefaultValues], BKInstrument.c lines 44-58. *)
Fixpoint set_defaults (sqs : list (option sequence)) (dvs : list Z) (sts : list sstate) : res (list sstate) :=
  match sqs, dvs, sts with
  | sq :: sqs, d :: dvs, st :: sts =>
    let* st := BKSequenceStateSetValue sq st (match sq with Some _ => 0 | None => d end) in
    let* sts := set_defaults sqs dvs sts in
    Ok (st :: sts)
  | _, _, _ => Ok []
  end.
Definition BKInstrumentStateSetDefaultValues (sqs : list (option sequence)) (s : istate) : res istate :=
  let* sts := set_defaults sqs sequenceDefaultValue (is_states s) in
  Ok (mk_istate (is_phase s) (is_numActive s) sts (is_muted s)).

(** [BKInstrumentStateInit], BKInstrument.c lines 271-278. *)
Definition BKInstrumentStateInit : res istate :=
  BKInstrumentStateSetDefaultValues [None; None; None; None] (mk_istate 0 0 (repeat sstate_zero BK_MAX_SEQUENCES) 0).

(** Loop of [BKInstrumentStateSetPhase], BKInstrument.c lines 352-359: slots below
    [numSequences]; [i] is the slot of the first element of the lists. *)
Fixpoint set_phase_loop (fuel : nat) (num i : Z) (sqs : list (option sequence)) (sts : list sstate) (phase active : Z) : res (list sstate * Z) :=
  match sqs, sts with
  | sq :: sqs, st :: sts =>
    if i <? num then
      let* (st, active) :=
        match sq with
        | Some _ =>
          let* (st, r) := BKSequenceStateSetPhase fuel sq st phase in
          Ok (st, if r =? BK_SEQUENCE_RETURN_FINISH then active else active + 1)
        | None => Ok (st, active)
        end in
      let* (sts, active) := set_phase_loop fuel num (i + 1) sqs sts phase active in
      Ok (st :: sts, active)
    else Ok (st :: sts, active)
  | _, _ => Ok (sts, active)
  end.

(** [BKInstrumentStateSetPhase], BKInstrument.c lines 334-391; the state is
    attached to [instr]. *)
Definition BKInstrumentStateSetPhase (fuel : nat) (instr : instrument) (s : istate) (phase : Z) : res istate :=
  if (is_phase s =? BK_SEQUENCE_PHASE_RELEASE) && (phase =? BK_SEQUENCE_PHASE_RELEASE) then Ok s else
  let* (sts, active) :=
    if (0 <=? phase) && (phase <=? 2)
    then set_phase_loop fuel (in_numSequences instr) 0 (in_sequences instr) (is_states s) phase 0
    else Ok (is_states s, 0) in
  let phase := if (active =? 0) && (phase =? BK_SEQUENCE_PHASE_RELEASE) then BK_SEQUENCE_PHASE_MUTE else phase in
  if (phase =? BK_SEQUENCE_PHASE_ATTACK) || (phase =? BK_SEQUENCE_PHASE_RELEASE) then Ok (mk_istate phase active sts (is_muted s))
  else if phase =? BK_SEQUENCE_PHASE_MUTE then
    if negb (is_phase s =? BK_SEQUENCE_PHASE_MUTE)
    then Ok (mk_istate BK_SEQUENCE_PHASE_MUTE active sts (is_muted s + 1))
    else Ok (mk_istate (is_phase s) active sts (is_muted s))
  else Ok (mk_istate (is_phase s) active sts (is_muted s)).

(** [BKInstrumentStateTick], BKInstrument.c lines 319-332; slots [i .. numSequences - 1]. *)
Fixpoint tick_loop (fuel : nat) (n : nat) (i : Z) (instr : instrument) (s : istate) (level : Z) : res istate :=
  match n with
  | O => Ok s
  | S n =>
    let* sq := aget (in_sequences instr) i in
    let* st := aget (is_states s) i in
    let* (st, r) := BKSequenceStateStep fuel sq st level in
    let* sts := aset (is_states s) i st in
    let s := mk_istate (is_phase s) (is_numActive s) sts (is_muted s) in
    let* s :=
      if r =? BK_SEQUENCE_RETURN_FINISH then
        let s := mk_istate (is_phase s) (is_numActive s - 1) (is_states s) (is_muted s) in
        if is_numActive s =? 0 then BKInstrumentStateSetPhase fuel instr s BK_SEQUENCE_PHASE_MUTE else Ok s
      else Ok s in
    tick_loop fuel n (i + 1) instr s level
  end.
Definition BKInstrumentStateTick (fuel : nat) (instr : instrument) (s : istate) (level : Z) : res istate :=
  tick_loop fuel (Z.to_nat (in_numSequences instr)) 0 instr s level.

(** [BKInstrumentStateSetInstrument] with an instrument, BKInstrument.c lines
    280-298, list of states left out; defaults are set twice with the old and
    with the new sequences (line 244 and 289). *)
Definition BKInstrumentStateSetInstrument (fuel : nat) (old instr : list (option sequence)) (s : istate) : res istate :=
  let* s := BKInstrumentStateSetDefaultValues old s in
  let* s := BKInstrumentStateSetDefaultValues instr s in
  BKInstrumentStateSetPhase fuel (BKInstrumentUpdateNumSequences instr) s BK_SEQUENCE_PHASE_ATTACK.

(** [BKInstrumentSetEnvelopeADSR], BKInstrument.c lines 217-227. *)
Definition adsr_phases (attack decay sustain release : Z) : list sphase :=
  [mk_sphase attack BK_MAX_VOLUME; mk_sphase decay sustain; mk_sphase 240 sustain; mk_sphase release 0].
Definition BKInstrumentSetEnvelopeADSR (attack decay sustain release : Z) : res (option sequence * Z) :=
  BKSequenceFuncEnvelopeCreate (adsr_phases attack decay sustain release) 2 1.

(** BKInstrumentSetSequenceValues, BKInstrument.c lines 169-205, for an instrument
    with attached state [s]: the slot is replaced, default values are set, the
    state is muted. An empty list clears the slot. [slot] is unsigned. *)
Definition BKInstrumentSetSequenceValues (fuel : nat) (instr : instrument) (s : istate) (slot : Z) (v : values) (so sl : Z) : res (instrument * istate * Z) :=
  if slot <? Z.of_nat BK_MAX_SEQUENCES then
    let* (new, code) :=
      match v with
      | VSimple [] | VEnvelope [] => Ok (None, 0)
      | VSimple l => Ok (Some (BKSequenceFuncSimpleCreate l so sl), 0)
      | VEnvelope l => BKSequenceFuncEnvelopeCreate l so sl
      end in
    if negb (code =? 0) then Ok (instr, s, code) else
    let* sqs := aset (in_sequences instr) slot new in
    let instr := BKInstrumentUpdateNumSequences sqs in
    let* s := BKInstrumentStateSetDefaultValues sqs s in
    let* s := BKInstrumentStateSetPhase fuel instr s BK_SEQUENCE_PHASE_MUTE in
    Ok (instr, s, 0)
  else Ok (instr, s, BK_INVALID_ATTRIBUTE).

(** ** Ownership of values *)

(** A block allocated for a sequence: header with pointer [hs_values] to values,
    and the values stored behind the header.  [BKSequenceFuncSimpleCopy] and
    [BKSequenceFuncEnvelopeCopy], BKSequence.c lines 114-136 and 357-379, first
    set the pointer of the copy to its own storage, then copy the whole header
    from the original, which overwrites it. *)
Record sblock : Type := mk_sblock { hs_header : sequence; hs_values : Z; hs_store : values }.
Definition sheap : Type := Z -> option sblock.
Definition sh_set (h : sheap) (p : Z) (b : option sblock) : sheap := fun q => if q =? p then b else h q.

Definition sh_create (h : sheap) (p : Z) (sq : sequence) : sheap := sh_set h p (Some (mk_sblock sq p (sq_values sq))).
(** The values seen through block [p]. *)
Definition sh_read (h : sheap) (p : Z) : res sequence :=
  match h p with
  | None => Err EFreed
  | Some b =>
    match h (hs_values b) with
    | None => Err EFreed
    | Some b' => let sq := hs_header b in
      Ok (mk_sequence (hs_store b') (sq_length sq) (sq_sustainOffset sq) (sq_sustainLength sq) (sq_fracShift sq))
    end
  end.
(** Copy to block [q]: the header, including its pointer, comes from [p]; then the
    values are copied from and to the block pointed to, which is the original's. *)
Definition BKSequenceCopy (h : sheap) (q p : Z) : res sheap :=
  match h p with
  | None => Err EFreed
  | Some b => Ok (sh_set h q (Some (mk_sblock (hs_header b) (hs_values b) (VSimple []))))
  end.
(** [BKSequenceDispose], BKSequence.c lines 454-457. *)
Definition BKSequenceDispose (h : sheap) (p : Z) : res sheap :=
  match h p with
  | None => Err EFreed
  | Some _ => Ok (sh_set h p None)
  end.

(** [BKInstrument] memory as seen by [BKInstrumentInitCopy], BKInstrument.c lines
    115-137; [memset] clears [sizeof (sizeof (BKInstrument))] = 8 bytes only, the
    other fields keep the contents [old] of the memory. [fresh] are the addresses
    of the sequences' copies. *)
Record imem : Type := mk_imem { im_flags : Z; im_isa : Z; im_num : Z; im_stateList : Z; im_seqs : list Z }.
Fixpoint copy_seqs (h : sheap) (fresh : list Z) (old orig : list Z) (n : nat) : res (sheap * list Z) :=
  match n, fresh, old, orig with
  | S n, f :: fresh, o :: old, p :: orig =>
    let* (h, o) := (if negb (p =? 0) then let* h := BKSequenceCopy h f p in Ok (h, f) else Ok (h, o)) in
    let* (h, l) := copy_seqs h fresh old orig n in
    Ok (h, o :: l)
  | _, _, _, _ => Ok (h, old)
  end.
Definition BKInstrumentInitCopy (h : sheap) (fresh : list Z) (old orig : imem) : res (sheap * imem) :=
  let* (h, seqs) := copy_seqs h fresh (im_seqs old) (im_seqs orig) (Z.to_nat (im_num orig)) in
  Ok (h, mk_imem 0 (im_isa old) (im_num orig) (im_stateList old) seqs).
