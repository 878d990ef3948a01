(** Model of contexts to which units are attached without a track (/repo/src/BKContext.c and
    /repo/src/BKUnit.c).  The master clock is attached with the first track ([BKTrackAttach],
    BKTrack.c), so such a context has no clock unless the client attaches one, which is not
    modelled here.  Then [BKContextRun] has only its last part, lines 402-406. *)
From Verif Require Import CInt TimeModel Kernels BufferModel DataModel UnitModel TrackModel ContextModel.

(** [struct BKContext], BKContext.h lines 51-81, without clocks. *)
Record pcontext := mk_pcontext {
  pc_delta : Z;                    (* deltaTime *)
  pc_units : list (Z * bkunit);    (* firstUnit ... lastUnit, with numbers *)
  pc_channels : list buffer        (* channels [numChannels] *)
}.

(** [unit -> run (unit, endTime)] for every unit, BKContext.c lines 404-405: [BKUnitRun] and
    the pulses it adds to the channels (BKUnit.c lines 1181-1218). *)
Fixpoint run_plain (fuel : nat) (us : list (Z * bkunit)) (chs : list buffer) (time : Z)
  : res (list (Z * bkunit) * list buffer) :=
  match us with
  | [] => Ok ([], chs)
  | (i, u) :: us =>
    let* (u, ls) := BKUnitRun fuel u time in
    let* chs := mix_channels chs ls (un_time u) in
    let* (us, chs) := run_plain fuel us chs time in
    Ok ((i, u) :: us, chs)
  end.

(** [BKContextEnd], lines 411-436, with [BKContextRun], lines 402-406. *)
Definition plain_end (fuel : nat) (c : pcontext) (endTime : Z) : res pcontext :=
  let* (us, chs) := run_plain fuel (pc_units c) (pc_channels c) endTime in
  Ok (mk_pcontext (u32 (pc_delta c - endTime)) (map (fun iu => (fst iu, BKUnitEnd (snd iu) endTime)) us)
                  (map (fun b => BKBufferShift b endTime) chs)).

(** [BKContextRead], lines 444-456. *)
Definition plain_read (c : pcontext) (size : Z) : res (pcontext * Z * list (list Z)) :=
  let* (chs, size, l) := read_channels (pc_channels c) size in
  Ok (mk_pcontext (pc_delta c) (pc_units c) chs, size, l).

(** [BKContextGenerate], lines 262-299. *)
Fixpoint plain_loop (m fuel : nat) (c : pcontext) (remaining written : Z) : res (pcontext * Z * list (list Z)) :=
  match m with
  | O => Err EFuel
  | S m =>
    let chunk := if remaining >? BK_MAX_GENERATE_SAMPLES then BK_MAX_GENERATE_SAMPLES else remaining in
    let* c := plain_end fuel c (u32 (Z.shiftl chunk BK_FINT20_SHIFT)) in
    let* (c, chunk, l) := plain_read c chunk in
    let written := u32 (written + chunk) in
    let chunk := if chunk =? 0 then remaining else chunk in
    let remaining := u32 (remaining - chunk) in
    if negb (remaining =? 0) then
      let* (c, written, l') := plain_loop m fuel c remaining written in
      Ok (c, written, join l l')
    else Ok (c, written, l)
  end.
Definition plain_generate (m fuel : nat) (c : pcontext) (size : Z) := plain_loop m fuel c size 0.

(** [BKContextInitGeneric], lines 55-76. *)
Definition plain_init (numChannels : Z) : pcontext :=
  mk_pcontext 0 [] (repeat BKBufferInit (Z.to_nat (BKClamp (u32 numChannels) 1 BK_MAX_CHANNELS))).

(** [BKUnitAttach], BKUnit.c lines 260-283, for a unit with number [id]: it becomes the last one.
    A unit which is attached already is refused. *)
Definition plain_attach (c : pcontext) (id : Z) (u : bkunit) : pcontext :=
  let (u', code) := BKUnitAttach u (Z.of_nat (length (pc_channels c))) (pc_delta c) in
  if code =? 0 then mk_pcontext (pc_delta c) (pc_units c ++ [(id, u')]) (pc_channels c) else c.

(** [BKUnitDetach], BKUnit.c lines 285-309: only this unit is taken out of the list. *)
Definition plain_detach (c : pcontext) (id : Z) : pcontext :=
  mk_pcontext (pc_delta c) (filter (fun iu => negb (fst iu =? id)) (pc_units c)) (pc_channels c).

(** A call of the client on an attached unit. *)
Fixpoint on_unit (fuel : nat) (us : list (Z * bkunit)) (id : Z) (o : uop) : res (list (Z * bkunit)) :=
  match us with
  | [] => Ok []
  | (i, u) :: us =>
    if i =? id then let* (u, _) := ustep fuel u o in Ok ((i, u) :: us)
    else let* us := on_unit fuel us id o in Ok ((i, u) :: us)
  end.

(** What a client can do, and the frames it gets. *)
Inductive pop :=
| PAttach (id : Z) (u : bkunit)
| PDetach (id : Z)
| PCall (id : Z) (o : uop)
| PGenerate (size : Z).

Definition pstep (m fuel : nat) (c : pcontext) (o : pop) : res (pcontext * list (list Z)) :=
  match o with
  | PAttach id u => Ok (plain_attach c id u, [])
  | PDetach id => Ok (plain_detach c id, [])
  | PCall id o => let* us := on_unit fuel (pc_units c) id o in Ok (mk_pcontext (pc_delta c) us (pc_channels c), [])
  | PGenerate size => let* (c, _, l) := plain_generate m fuel c (u32 size) in Ok (c, l)
  end.

(** The frames of all calls, one after the other. *)
Fixpoint pruns (m fuel : nat) (c : pcontext) (ops : list pop) : res (pcontext * list (list Z)) :=
  match ops with
  | [] => Ok (c, [])
  | o :: ops =>
    let* (c, l) := pstep m fuel c o in
    let* (c, l') := pruns m fuel c ops in
    Ok (c, join l l')
  end.
