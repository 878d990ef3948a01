(** Model of /repo/src/BKContext.c: contexts with tracks, clocks and channel buffers.

    The lists of clocks, dividers and units are sequences here; that the linked lists behave
    like sequences without duplicates is proved in ListProofs.v (C16, C17).  Attached units are
    tracks; units attached without a track are not modelled.  The effect dividers are those
    of the attached tracks, in the order of the tracks ([BKTrackAttach] and [BKTrackDetach]
    change both lists).  Callbacks of clocks and of other dividers are given by an
    environment: they can move the next tick of their clock and set attributes of tracks. *)
From Verif Require Import CInt TimeModel Kernels BufferModel DataModel UnitModel TrackModel.

Definition BK_MAX_GENERATE_SAMPLES : Z := 1024.   (* BKBase.h line 101 *)
Definition BK_MIN_SAMPLE_RATE : Z := 16000.       (* BKBase.h line 95 *)
Definition BK_MAX_SAMPLE_RATE : Z := 96000.       (* BKBase.h line 96 *)
Definition BK_INVALID_RETURN_VALUE : Z := -28664. (* BKBase.h lines 360-368 *)

(** A clock ([struct BKClock], BKClock.h lines 60-72) in the list of a context.  The master
    clock has number 0. *)
Record vclock := mk_vclock { k_id : Z; k_period : Z; k_time : Z; k_next : Z; k_counter : Z }.

(** [struct BKContext], BKContext.h lines 51-81. *)
Record context := mk_context {
  cx_rate : Z;                     (* sampleRate *)
  cx_period : Z;                   (* masterClock.period as set by the client *)
  cx_current : Z;                  (* currentTime *)
  cx_delta : Z;                    (* deltaTime *)
  cx_clocks : list vclock;         (* firstClock ... lastClock *)
  cx_tracks : list (Z * track);    (* firstUnit ... lastUnit, with numbers *)
  cx_channels : list buffer        (* channels [numChannels] *)
}.

Definition x_current c v := mk_context (cx_rate c) (cx_period c) v (cx_delta c) (cx_clocks c) (cx_tracks c) (cx_channels c).
Definition x_delta c v := mk_context (cx_rate c) (cx_period c) (cx_current c) v (cx_clocks c) (cx_tracks c) (cx_channels c).
Definition x_clocks c v := mk_context (cx_rate c) (cx_period c) (cx_current c) (cx_delta c) v (cx_tracks c) (cx_channels c).
Definition x_tracks c v := mk_context (cx_rate c) (cx_period c) (cx_current c) (cx_delta c) (cx_clocks c) v (cx_channels c).
Definition x_channels c v := mk_context (cx_rate c) (cx_period c) (cx_current c) (cx_delta c) (cx_clocks c) (cx_tracks c) v.

(** What callbacks of clock [id] (and of dividers ticked by it) do at its [counter]-th tick at
    clock time [time]: the value left in [info.nextTime], and calls on tracks. *)
Record env := mk_env {
  e_next : Z -> Z -> Z -> Z;
  e_calls : Z -> Z -> Z -> list (Z * top)
}.

(** ** Calls on tracks *)

(** A function on the track with number [id], if it is attached. *)
Fixpoint on_track (f : track -> res track) (ts : list (Z * track)) (id : Z) : res (list (Z * track)) :=
  match ts with
  | [] => Ok []
  | (i, t) :: ts =>
    if i =? id then let* t := f t in Ok ((i, t) :: ts)
    else let* ts := on_track f ts id in Ok ((i, t) :: ts)
  end.

Definition call_track (fuel : nat) (ts : list (Z * track)) (call : Z * top) : res (list (Z * track)) :=
  on_track (fun t => let* (t, _) := tstep fuel t (snd call) in Ok t) ts (fst call).

Fixpoint call_tracks (fuel : nat) (ts : list (Z * track)) (calls : list (Z * top)) : res (list (Z * track)) :=
  match calls with
  | [] => Ok ts
  | c :: calls => let* ts := call_track fuel ts c in call_tracks fuel ts calls
  end.

(** The effect dividers of a master tick: every track has a divider of 1 ([BKTrackInitGeneric],
    BKTrack.c line 408), so it is ticked every time. *)
Fixpoint tick_tracks (fuel : nat) (ts : list (Z * track)) : res (list (Z * track)) :=
  match ts with
  | [] => Ok []
  | (i, t) :: ts =>
    let* t := BKTrackTick fuel t in
    let* ts := tick_tracks fuel ts in
    Ok ((i, t) :: ts)
  end.

(** ** Clocks *)

(** [BKClockTick], BKClock.c lines 214-244; the callback of the master clock is
    [BKContextTick], BKContext.c lines 31-37: beat dividers first. *)
Definition BKClockTick (e : env) (fuel : nat) (ts : list (Z * track)) (k : vclock)
  : res (list (Z * track) * vclock) :=
  if BKTimeIsEqual (k_time k) (k_next k) then
    let* ts := call_tracks fuel ts (e_calls e (k_id k) (k_counter k) (k_time k)) in
    let* ts := (if k_id k =? 0 then tick_tracks fuel ts else Ok ts) in
    let nt := e_next e (k_id k) (k_counter k) (k_time k) in
    let* (period, nextTime) :=
      if BKTimeIsGreater nt (k_time k)
      then let* per := BKTimeSub nt (k_time k) in Ok (per, nt)
      else let* n := BKTimeAdd (k_time k) (k_period k) in Ok (k_period k, n) in
    Ok (ts, mk_vclock (k_id k) period (k_time k) nextTime (u32 (k_counter k + 1)))
  else Ok (ts, k).

(** First loop of [BKClocksAdvance], lines 350-356. *)
Fixpoint tick_clocks (e : env) (fuel : nat) (ts : list (Z * track)) (ks : list vclock) (nextTime : Z)
  : res (list (Z * track) * list vclock * Z) :=
  match ks with
  | [] => Ok (ts, [], nextTime)
  | k :: ks =>
    let* (ts, k) := BKClockTick e fuel ts k in
    let nextTime := if BKTimeIsLess (k_next k) nextTime then k_next k else nextTime in
    let* (ts, ks, nextTime) := tick_clocks e fuel ts ks nextTime in
    Ok (ts, k :: ks, nextTime)
  end.

(** Second loop of [BKClocksAdvance], lines 370-371. *)
Fixpoint advance_clocks (ks : list vclock) (period : Z) : res (list vclock) :=
  match ks with
  | [] => Ok []
  | k :: ks =>
    let* t := BKTimeAddFUInt20 (k_time k) period in
    let* ks := advance_clocks ks period in
    Ok (mk_vclock (k_id k) (k_period k) t (k_next k) (k_counter k) :: ks)
  end.

(** [BKClocksAdvance], lines 339-376.  Callbacks do not reset clocks, so the outer loop runs once. *)
Definition BKClocksAdvance (e : env) (fuel : nat) (c : context) : res (context * Z) :=
  let* (ts, ks, nextTime) := tick_clocks e fuel (cx_tracks c) (cx_clocks c) BK_TIME_MAX in
  let* deltaTime := BKTimeSub nextTime (cx_current c) in
  let period := if BKTimeIsLessFUInt20 deltaTime (BK_INT_MAX / 3)
                then BKTimeGetFUInt20 deltaTime else BK_INT_MAX / 3 in
  let* ks := advance_clocks ks period in
  let* t := BKTimeAddFUInt20 (cx_current c) period in
  Ok (x_current (x_clocks (x_tracks c ts) ks) t, period).

(** ** Running *)

(** The pulses of a unit and [BKBufferEnd] for every channel (BKUnit.c lines 1181-1218). *)
Fixpoint mix_channels (chs : list buffer) (ls : list (list (Z * Z))) (time : Z) : res (list buffer) :=
  match chs with
  | [] => Ok []
  | b :: chs =>
    let* b := add_all b (hd [] ls) in
    let* chs := mix_channels chs (tl ls) time in
    Ok (BKBufferEnd b time :: chs)
  end.

(** [unit -> run (unit, time)] for every unit, lines 396-397 and 404-405. *)
Fixpoint run_tracks (fuel : nat) (ts : list (Z * track)) (chs : list buffer) (time : Z)
  : res (list (Z * track) * list buffer) :=
  match ts with
  | [] => Ok ([], chs)
  | (i, t) :: ts =>
    let* (t, ls) := BKTrackRun fuel t time in
    let* chs := mix_channels chs ls (un_time (tr_unit t)) in
    let* (ts, chs) := run_tracks fuel ts chs time in
    Ok ((i, t) :: ts, chs)
  end.
Definition run_units (fuel : nat) (c : context) (time : Z) : res context :=
  let* (ts, chs) := run_tracks fuel (cx_tracks c) (cx_channels c) time in
  Ok (x_channels (x_tracks c ts) chs).

(** The loop of [BKContextRun], lines 385-398; [n] bounds the iterations. *)
Fixpoint run_loop (n : nat) (e : env) (fuel : nat) (c : context) (time endTime : Z) : res (context * Z) :=
  if time <? endTime then
    match n with
    | O => Err EFuel
    | S n =>
      let* (c, clockDelta) := BKClocksAdvance e fuel c in
      let time := u32 (time + clockDelta) in
      let* c := run_units fuel c time in
      run_loop n e fuel c time endTime
    end
  else Ok (c, time).

(** [BKContextRun], lines 378-409. *)
Definition BKContextRun (n : nat) (e : env) (fuel : nat) (c : context) (endTime : Z) : res context :=
  match cx_clocks c with
  | _ :: _ =>
    let* (c, time) := run_loop n e fuel c (cx_delta c) endTime in
    Ok (x_delta c time)
  | [] => run_units fuel c endTime
  end.

Definition end_track (time : Z) (it : Z * track) : Z * track :=
  (fst it, t_unit (snd it) (BKUnitEnd (tr_unit (snd it)) time)).

(** [BKContextEnd], lines 411-436. *)
Definition BKContextEnd (n : nat) (e : env) (fuel : nat) (c : context) (endTime : Z) : res context :=
  let* c := BKContextRun n e fuel c endTime in
  let c := x_delta c (u32 (cx_delta c - endTime)) in
  let c := x_tracks c (map (end_track endTime) (cx_tracks c)) in
  Ok (x_channels c (map (fun b => BKBufferShift b endTime) (cx_channels c))).

(** [BKContextSize], lines 438-442. *)
Definition BKContextSize (c : context) : res Z :=
  let* b := aget (cx_channels c) 0 in Ok (BKBufferSize b).

(** [BKContextRead], lines 444-456: every channel passes the number of frames on to the next.
    The result has the frames of each channel; they are stored interlaced. *)
Fixpoint read_channels (chs : list buffer) (size : Z) : res (list buffer * Z * list (list Z)) :=
  match chs with
  | [] => Ok ([], size, [])
  | b :: chs =>
    let* (b, samples) := BKBufferRead b size in
    let* (chs, size, l) := read_channels chs (Z.of_nat (length samples)) in
    Ok (b :: chs, size, samples :: l)
  end.
Definition BKContextRead (c : context) (size : Z) : res (context * Z * list (list Z)) :=
  let* (chs, size, l) := read_channels (cx_channels c) size in
  Ok (x_channels c chs, size, l).

(** Frames one after the other in every channel. *)
Fixpoint join (a b : list (list Z)) : list (list Z) :=
  match a, b with
  | x :: a, y :: b => (x ++ y) :: join a b
  | [], b => b
  | a, [] => a
  end.

(** [BKContextGenerate], lines 262-299: the value returned and the frames of every channel.
    [BKContextEnd] returns the time, which is not negative here. *)
Fixpoint generate_loop (m n : nat) (e : env) (fuel : nat) (c : context) (remaining written : Z)
  : res (context * Z * list (list Z)) :=
  match m with
  | O => Err EFuel
  | S m =>
    let chunk := if remaining >? BK_MAX_GENERATE_SAMPLES then BK_MAX_GENERATE_SAMPLES else remaining in
    let* c := BKContextEnd n e fuel c (u32 (Z.shiftl chunk BK_FINT20_SHIFT)) in
    let* (c, chunk, l) := BKContextRead c chunk in
    let written := u32 (written + chunk) in
    let chunk := if chunk =? 0 then remaining else chunk in
    let remaining := u32 (remaining - chunk) in
    if negb (remaining =? 0) then
      let* (c, written, l') := generate_loop m n e fuel c remaining written in
      Ok (c, written, join l l')
    else Ok (c, written, l)
  end.
Definition BKContextGenerate (m n : nat) (e : env) (fuel : nat) (c : context) (size : Z) :=
  generate_loop m n e fuel c size 0.

(** [BKContextGenerateToTime], lines 301-333: the value returned and the blocks passed to
    [write].  [write] gets the number of blocks before and the frames of the block. *)
Fixpoint generate_to_loop (m n : nat) (e : env) (fuel : nat) (write : nat -> list (list Z) -> Z)
         (c : context) (endTime numFrames : Z) (blocks : nat)
  : res (context * Z * list (list (list Z))) :=
  if BKTimeIsLess (cx_current c) endTime then
    match m with
    | O => Err EFuel
    | S m =>
      let* deltaTime := BKTimeSub endTime (cx_current c) in
      let period := if BKTimeIsLessFUInt20 deltaTime (BK_INT_MAX / 3)
                    then BKTimeGetFUInt20 deltaTime else BK_INT_MAX / 3 in
      let* c := BKContextEnd n e fuel c period in
      let* size := BKContextSize c in
      if (size >=? BK_MAX_GENERATE_SAMPLES) || BKTimeIsGreaterEqual (cx_current c) endTime then
        let* (c, size, l) := BKContextRead c BK_MAX_GENERATE_SAMPLES in
        let* numFrames := chk32 (numFrames + size) in
        if negb (write blocks l =? 0) then Ok (c, BK_INVALID_RETURN_VALUE, [l]) else
        let* (c, r, ls) := generate_to_loop m n e fuel write c endTime numFrames (S blocks) in
        Ok (c, r, l :: ls)
      else generate_to_loop m n e fuel write c endTime numFrames blocks
    end
  else Ok (c, numFrames, []).
Definition BKContextGenerateToTime (m n : nat) (e : env) (fuel : nat) (write : nat -> list (list Z) -> Z)
           (c : context) (endTime : Z) :=
  generate_to_loop m n e fuel write c endTime 0 0.

(** ** Life of a context *)

(** [BKContextInitGeneric], lines 55-76; [period] is the one of the master clock, which is
    computed with floating point numbers (lines 42-53, not modelled). *)
Definition BKContextInit (numChannels sampleRate period : Z) : context :=
  mk_context (BKClamp (u32 sampleRate) BK_MIN_SAMPLE_RATE BK_MAX_SAMPLE_RATE) period 0 0 [] []
             (repeat BKBufferInit (Z.to_nat (BKClamp (u32 numChannels) 1 BK_MAX_CHANNELS))).

Definition numChannels (c : context) : Z := Z.of_nat (length (cx_channels c)).

(** [BKClockAttach] (BKClock.c lines 87-133) of a new clock behind the others. *)
Definition attach_clock (c : context) (id period : Z) : context :=
  x_clocks c (cx_clocks c ++ [mk_vclock id period 0 0 0]).

(** [BKContextAttachDivider], lines 481-516, attaches the master clock before the other
    clocks unless it is attached. *)
Definition attach_master (c : context) : context :=
  if BKTimeIsGreater (cx_period c) 0 then
    if existsb (fun k => k_id k =? 0) (cx_clocks c) then c
    else x_clocks c (mk_vclock 0 (cx_period c) 0 0 0 :: cx_clocks c)
  else c.

(** [BKTrackAttach], BKTrack.c lines 510-529, for a track which gets number [id]. *)
Definition attach_track (c : context) (id : Z) (t : track) : res (context * Z) :=
  let* (t, ret) := BKTrackAttach t (numChannels c) (cx_rate c) (cx_delta c) in
  if ret =? 0 then Ok (attach_master (x_tracks c (cx_tracks c ++ [(id, t)])), ret)
  else Ok (c, ret).

(** [BKTrackDetach], BKTrack.c lines 531-537: the track is no longer part of the context. *)
Definition detach_track (c : context) (id : Z) : context :=
  x_tracks c (filter (fun it => negb (fst it =? id)) (cx_tracks c)).

(** [BKContextSetPtrObj], lines 183-220: the period of the master clock. *)
Definition set_clock_period (c : context) (period : Z) : context * Z :=
  if BKTimeIsGreater period 0 then
    (mk_context (cx_rate c) period (cx_current c) (cx_delta c)
       (map (fun k => if k_id k =? 0 then mk_vclock (k_id k) period (k_time k) (k_next k) (k_counter k) else k) (cx_clocks c))
       (cx_tracks c) (cx_channels c), 0)
  else (c, BK_INVALID_VALUE).
(** The same for a pulse kernel; [None] is the null pointer. *)
Definition set_pulse_kernel (c : context) (kernel : option (list (list Z))) : context :=
  let k := match kernel with Some k => k | None => BKBufferStepPhasesHarm end in
  x_channels c (map (fun b => mk_buffer (b_time b) (b_capacity b) (b_accum b) (b_frames b) k) (cx_channels c)).

(** [BKContextReset], lines 458-479; [reset] of a track is [BKTrackReset]. *)
Fixpoint reset_tracks (fuel : nat) (ts : list (Z * track)) : res (list (Z * track)) :=
  match ts with
  | [] => Ok []
  | (i, t) :: ts =>
    let* t := BKTrackReset fuel t in
    let* ts := reset_tracks fuel ts in
    Ok ((i, t) :: ts)
  end.
Definition BKContextReset (fuel : nat) (c : context) : res context :=
  let* ts := reset_tracks fuel (cx_tracks c) in
  Ok (mk_context (cx_rate c) (cx_period c) 0 0
        (map (fun k => mk_vclock (k_id k) (k_period k) 0 0 0) (cx_clocks c))
        ts (map BKBufferClear (cx_channels c))).

(** What a client can do with a context and its tracks. *)
Inductive xop :=
| XAttachClock (id period : Z)
| XAttachTrack (id : Z) (t : track)
| XDetachTrack (id : Z)
| XTrack (id : Z) (o : top)
| XPeriod (period : Z)
| XKernel (kernel : option (list (list Z)))
| XGenerate (size : Z)
| XEnd (time : Z)
| XRead (size : Z)
| XGenerateTo (write : nat -> list (list Z) -> Z) (time : Z)
| XReset.

(** Loop bounds are given by [m] (chunks), [n] (clock ticks of a run) and [fuel] (tracks). *)
Definition xstep (m n : nat) (e : env) (fuel : nat) (c : context) (o : xop) : res (context * list (list Z)) :=
  match o with
  | XAttachClock id period => Ok (attach_clock c id period, [])
  | XAttachTrack id t => let* (c, _) := attach_track c id t in Ok (c, [])
  | XDetachTrack id => Ok (detach_track c id, [])
  | XTrack id o => let* ts := call_track fuel (cx_tracks c) (id, o) in Ok (x_tracks c ts, [])
  | XPeriod period => Ok (fst (set_clock_period c period), [])
  | XKernel k => Ok (set_pulse_kernel c k, [])
  | XGenerate size => let* (c, _, l) := BKContextGenerate m n e fuel c (u32 size) in Ok (c, l)
  | XEnd time => let* c := BKContextEnd n e fuel c (u32 time) in Ok (c, [])
  | XRead size => let* (c, _, l) := BKContextRead c (u32 size) in Ok (c, l)
  | XGenerateTo write time =>
    let* (c, _, ls) := BKContextGenerateToTime m n e fuel write c time in
    Ok (c, fold_right join [] ls)
  | XReset => let* c := BKContextReset fuel c in Ok (c, [])
  end.

Fixpoint xruns (m n : nat) (e : env) (fuel : nat) (c : context) (ops : list xop) : res (context * list (list (list Z))) :=
  match ops with
  | [] => Ok (c, [])
  | o :: ops =>
    let* (c, l) := xstep m n e fuel c o in
    let* (c, ls) := xruns m n e fuel c ops in
    Ok (c, l :: ls)
  end.
