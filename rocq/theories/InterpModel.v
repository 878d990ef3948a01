(** Model of /repo/src/BKInterpolation.h and BKInterpolation.c. *)
From Verif Require Import CInt.

(** [BKSlideState], BKInterpolation.h lines 35-44. *)
Record slide := mk_slide {
  sl_endValue : Z; sl_steps : Z; sl_value : Z; sl_stepDelta : Z;
  sl_roundBias : Z; sl_valueShift : Z; sl_step : Z }.

(** [BKIntervalState], BKInterpolation.h lines 46-56. *)
Record interval := mk_interval {
  iv_delta : Z; iv_steps : Z; iv_value : Z; iv_stepDelta : Z;
  iv_roundBias : Z; iv_valueShift : Z; iv_phase : Z; iv_step : Z }.

(** BKInterpolation.h lines 29-30. *)
Definition BK_STATE_STEP_FRAC_SHIFT : Z := 8.
Definition BK_STATE_MAX_STEPS : Z := 8388608.

(** Loop of [BKGetMaxValueShift], BKInterpolation.c lines 8-9; at most 30 iterations. *)
Fixpoint max_value_loop (fuel : nat) (maxValue shift : Z) : Z :=
  match fuel with
  | O => shift
  | S fuel => if (2 ^ shift <? maxValue) && (shift <? 30)
              then max_value_loop fuel maxValue (shift + 1) else shift
  end.

(** [BKGetMaxValueShift], BKInterpolation.c lines 3-15. *)
Definition BKGetMaxValueShift (maxValue : Z) : Z :=
  if maxValue =? 0 then 0 else 30 - max_value_loop 30 maxValue 0.

(** [BKSlideStateInit], BKInterpolation.c lines 17-22. *)
Definition BKSlideStateInit (maxValue : Z) : slide :=
  mk_slide 0 0 0 0 0 (BKGetMaxValueShift maxValue) 0.

(** Lines 38-41 (slide) and 101-104 (interval): the round bias. *)
Definition round_bias (delta steps stepDelta shift : Z) : res Z :=
  let d := Z.shiftr delta shift in
  if d =? 0 then Ok 0 else
  let* s8 := chk32 (steps * 2 ^ BK_STATE_STEP_FRAC_SHIFT) in
  let* q := chk32 (Z.quot s8 d) in
  chk32 (Z.quot q 2 * Z.shiftr stepDelta BK_STATE_STEP_FRAC_SHIFT).

(** [BKSlideStateSetValueAndSteps], BKInterpolation.c lines 24-56. *)
Definition BKSlideStateSetValueAndSteps (st : slide) (endValue steps : Z) : res slide :=
  let steps := BKClamp steps 0 BK_STATE_MAX_STEPS in
  if negb (steps =? 0) then
    let* endValue := chk32 (endValue * 2 ^ sl_valueShift st) in
    let* deltaValue := chk32 (endValue - sl_value st) in
    let* stepDelta := chk32 (Z.quot deltaValue steps) in
    let* roundBias := round_bias deltaValue steps stepDelta (sl_valueShift st) in
    Ok (mk_slide endValue steps (sl_value st) stepDelta roundBias (sl_valueShift st) steps)
  else
    let* v := chk32 (endValue * 2 ^ sl_valueShift st) in
    Ok (mk_slide v 0 v 0 (sl_roundBias st) (sl_valueShift st) 0).

(** BKInterpolation.h lines 214-222. *)
Definition BKSlideStateSetValue (st : slide) (endValue : Z) : res slide :=
  BKSlideStateSetValueAndSteps st endValue (sl_steps st).
Definition BKSlideStateSetSteps (st : slide) (steps : Z) : res slide :=
  BKSlideStateSetValueAndSteps st (Z.shiftr (sl_endValue st) (sl_valueShift st)) steps.

(** [BKSlideStateHalt], BKInterpolation.h lines 224-231. *)
Definition BKSlideStateHalt (st : slide) (setEndValue : bool) : slide :=
  mk_slide (sl_endValue st) (sl_steps st) (if setEndValue then sl_endValue st else sl_value st)
           (sl_stepDelta st) (sl_roundBias st) (sl_valueShift st) 0.

(** [BKSlideStateStep], BKInterpolation.h lines 233-243. *)
Definition BKSlideStateStep (st : slide) : res slide :=
  if sl_step st >? 0 then
    let* value := chk32 (sl_value st + sl_stepDelta st) in
    let step := sl_step st - 1 in
    let value := if step <=? 0 then sl_endValue st else value in
    Ok (mk_slide (sl_endValue st) (sl_steps st) value (sl_stepDelta st)
                 (sl_roundBias st) (sl_valueShift st) step)
  else Ok st.

(** [BKSlideStateGetValue], BKInterpolation.h lines 245-260. *)
Definition BKSlideStateGetValue (st : slide) : res Z :=
  let* v := chk32 (sl_value st + sl_roundBias st) in
  Ok (Z.shiftr v (sl_valueShift st)).

(** [BKIntervalStateInit], BKInterpolation.c lines 58-71. *)
Definition BKIntervalStateInit (maxValue : Z) : interval :=
  mk_interval 0 0 0 0 0 (BKClamp (BKGetMaxValueShift maxValue - 1) 0 30) 0 0.

(** [BKIntervalStateSetDeltaAndSteps], BKInterpolation.c lines 73-147. *)
Definition BKIntervalStateSetDeltaAndSteps (st : interval) (delta steps : Z) : res interval :=
  let steps := BKClamp steps 0 BK_STATE_MAX_STEPS in
  if negb (steps =? 0) then
    let* delta := chk32 (delta * 2 ^ iv_valueShift st) in
    if negb (steps =? iv_steps st) || negb (delta =? iv_delta st) then
      let* step :=
        if negb (iv_steps st =? 0) then
          let* step := chk32 (iv_step st * 2 ^ BK_STATE_STEP_FRAC_SHIFT) in
          let* step := chk32 (step + 2 ^ (BK_STATE_STEP_FRAC_SHIFT - 1)) in
          let stepFrac := Z.quot step (iv_steps st) in
          let* p := chk32 (stepFrac * steps) in
          Ok (Z.shiftr p BK_STATE_STEP_FRAC_SHIFT)
        else Ok 0 in
      let* stepDelta := chk32 (Z.quot delta steps) in
      let* roundBias := round_bias delta steps stepDelta (iv_valueShift st) in
      let* vs :=
        match iv_phase st with
        | 0 => let* v := chk32 (stepDelta * step) in Ok (v, stepDelta)
        | 1 => let* v := chk32 (stepDelta * (steps - step)) in
               let* neg := chk32 (- stepDelta) in Ok (v, neg)
        | 2 => let* neg := chk32 (- stepDelta) in
               let* v := chk32 (neg * step) in Ok (v, neg)
        | 3 => let* neg := chk32 (- stepDelta) in
               let* v := chk32 (neg * (steps - step)) in Ok (v, stepDelta)
        | _ => Ok (0, stepDelta)
        end in
      Ok (mk_interval delta steps (fst vs) (snd vs) roundBias (iv_valueShift st) (iv_phase st) step)
    else Ok st
  else
    Ok (mk_interval 0 0 0 0 (iv_roundBias st) (iv_valueShift st) 0 0).

(** BKInterpolation.h lines 262-270. *)
Definition BKIntervalStateSetDelta (st : interval) (delta : Z) : res interval :=
  BKIntervalStateSetDeltaAndSteps st delta (iv_steps st).
Definition BKIntervalStateSetSteps (st : interval) (steps : Z) : res interval :=
  BKIntervalStateSetDeltaAndSteps st (Z.shiftr (iv_delta st) (iv_valueShift st)) steps.

(** [BKIntervalStateStep], BKInterpolation.c lines 149-195. *)
Definition BKIntervalStateStep (st : interval) : res interval :=
  if negb (iv_steps st =? 0) then
    if iv_step st <? iv_steps st - 1 then
      let* v := chk32 (iv_value st + iv_stepDelta st) in
      Ok (mk_interval (iv_delta st) (iv_steps st) v (iv_stepDelta st)
            (iv_roundBias st) (iv_valueShift st) (iv_phase st) (iv_step st + 1))
    else
      let phase := Z.land (iv_phase st + 1) 3 in
      let* vs :=
        match phase with
        | 0 => Ok (0, iv_stepDelta st)
        | 1 => let* n := chk32 (- iv_stepDelta st) in Ok (iv_delta st, n)
        | 2 => Ok (0, iv_stepDelta st)
        | 3 => let* v := chk32 (- iv_delta st) in
               let* n := chk32 (- iv_stepDelta st) in Ok (v, n)
        | _ => Ok (iv_value st, iv_stepDelta st)
        end in
      Ok (mk_interval (iv_delta st) (iv_steps st) (fst vs) (snd vs)
            (iv_roundBias st) (iv_valueShift st) phase 0)
  else Ok st.

(** [BKIntervalStateGetValue], BKInterpolation.h lines 272-287. *)
Definition BKIntervalStateGetValue (st : interval) : res Z :=
  let* v := chk32 (iv_value st + iv_roundBias st) in
  Ok (Z.shiftr v (iv_valueShift st)).

(** Histories of slide and interval operations. *)
Inductive slide_op := SSet (endValue steps : Z) | SValue (endValue : Z) | SSteps (steps : Z)
                    | SHalt (setEnd : bool) | SStep.
Definition slide_step (st : slide) (o : slide_op) : res slide :=
  match o with
  | SSet v n => BKSlideStateSetValueAndSteps st v n
  | SValue v => BKSlideStateSetValue st v
  | SSteps n => BKSlideStateSetSteps st n
  | SHalt b => Ok (BKSlideStateHalt st b)
  | SStep => BKSlideStateStep st
  end.
Fixpoint slide_run (st : slide) (ops : list slide_op) : res slide :=
  match ops with
  | [] => Ok st
  | o :: ops => let* st := slide_step st o in slide_run st ops
  end.

Fixpoint slide_steps (n : nat) (st : slide) : res slide :=
  match n with O => Ok st | S n => let* st := BKSlideStateStep st in slide_steps n st end.

Inductive interval_op := ISet (delta steps : Z) | IStep.
Definition interval_step (st : interval) (o : interval_op) : res interval :=
  match o with
  | ISet d n => BKIntervalStateSetDeltaAndSteps st d n
  | IStep => BKIntervalStateStep st
  end.
Fixpoint interval_run (st : interval) (ops : list interval_op) : res interval :=
  match ops with
  | [] => Ok st
  | o :: ops => let* st := interval_step st o in interval_run st ops
  end.
