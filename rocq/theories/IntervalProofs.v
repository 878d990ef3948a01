(** Lemmas about intervals (tremolo and vibrato oscillation). *)
From Verif Require Import CIntFacts InterpModel InterpProofs.
Ltac Zify.zify_post_hook ::= idtac.

Record interval_inv (sh : Z) (st : interval) : Prop := {
  ii_sh : iv_valueShift st = sh;
  ii_delta : -1073741824 < iv_delta st < 1073741824;
  ii_mult : iv_delta st = iv_delta st / P sh * P sh;
  ii_steps : 0 <= iv_steps st <= 131072;
  ii_bias : 0 <= iv_roundBias st <= 268435456;
  ii_off : iv_steps st = 0 -> iv_value st = 0 /\ iv_delta st = 0 /\ iv_phase st = 0 /\ iv_step st = 0 /\ iv_stepDelta st = 0;
  ii_on : iv_steps st > 0 ->
    0 <= iv_step st < iv_steps st /\
    let s := Z.quot (iv_delta st) (iv_steps st) in
    (iv_phase st = 0 /\ iv_value st = s * iv_step st /\ iv_stepDelta st = s) \/
    (iv_phase st = 1 /\ (iv_value st = s * (iv_steps st - iv_step st) \/ iv_value st = iv_delta st - s * iv_step st) /\ iv_stepDelta st = - s) \/
    (iv_phase st = 2 /\ iv_value st = - s * iv_step st /\ iv_stepDelta st = - s) \/
    (iv_phase st = 3 /\ (iv_value st = - s * (iv_steps st - iv_step st) \/ iv_value st = - iv_delta st + s * iv_step st) /\ iv_stepDelta st = s)
}.

(** [k] increments never exceed the depth. *)
Lemma mul_abs_le D s k : 1 <= s -> 0 <= k <= s ->
  (0 <= D -> 0 <= Z.quot D s * k <= D) /\ (D < 0 -> D <= Z.quot D s * k <= 0).
Proof.
  intros Hs Hk. destruct (quot_dir D s Hs) as [Q1 Q2]. split; intros HD.
  - specialize (Q1 HD). nia.
  - specialize (Q2 HD). nia.
Qed.

Lemma interval_value_bound sh st : interval_inv sh st -> Z.abs (iv_value st) <= Z.abs (iv_delta st).
Proof.
  intros [I1 I2 I3 I4 I5 I6 I7]. destruct (Z.eq_dec (iv_steps st) 0) as [E|E].
  - destruct (I6 E) as (-> & -> & _). lia.
  - destruct (I7 ltac:(lia)) as (H & J). cbv zeta in J.
    destruct (mul_abs_le (iv_delta st) (iv_steps st) (iv_step st) ltac:(lia) ltac:(lia)) as [A1 A2].
    destruct (mul_abs_le (iv_delta st) (iv_steps st) (iv_steps st - iv_step st) ltac:(lia) ltac:(lia)) as [B1 B2].
    destruct (Z.lt_ge_cases (iv_delta st) 0) as [N|N];
      [specialize (A2 N); specialize (B2 N); clear A1 B1|specialize (A1 N); specialize (B1 N); clear A2 B2];
      destruct J as [(_ & -> & _)|[(_ & [-> | ->] & _)|[(_ & -> & _)|(_ & [-> | ->] & _)]]];
      rewrite ?Z.mul_opp_l; lia.
Qed.

Ltac iproj := cbn [iv_delta iv_steps iv_value iv_stepDelta iv_roundBias iv_valueShift iv_phase iv_step fst snd] in *.

Lemma quot_abs D s : 1 <= s -> Z.abs (Z.quot D s) <= Z.abs D.
Proof.
  intros Hs. destruct (quot_dir D s Hs) as [Q1 Q2].
  destruct (Z.lt_ge_cases D 0) as [N|N]; [specialize (Q2 N)|specialize (Q1 N)]; nia.
Qed.

Lemma interval_step_inv sh st : interval_inv sh st ->
  exists st', BKIntervalStateStep st = Ok st' /\ interval_inv sh st' /\
    iv_roundBias st' = iv_roundBias st /\ iv_delta st' = iv_delta st /\ iv_steps st' = iv_steps st.
Proof.
  intros I. assert (VB := interval_value_bound sh st I). destruct I as [I1 I2 I3 I4 I5 I6 I7].
  unfold BKIntervalStateStep. destruct (Z.eqb_spec (iv_steps st) 0) as [E|E]; cbn [negb].
  - exists st. split; [reflexivity|]. split; [constructor; assumption|]. auto.
  - destruct (I7 ltac:(lia)) as (H & J). cbv zeta in J.
    assert (QA := quot_abs (iv_delta st) (iv_steps st) ltac:(lia)).
    set (s := Z.quot (iv_delta st) (iv_steps st)) in *.
    destruct (Z.ltb_spec (iv_step st) (iv_steps st - 1)) as [L|L].
    + destruct (mul_abs_le (iv_delta st) (iv_steps st) (iv_step st) ltac:(lia) ltac:(lia)) as [A1 A2].
      assert (V : -2147483648 <= iv_value st + iv_stepDelta st <= 2147483647).
      { assert (Z.abs (iv_stepDelta st) <= Z.abs s) by (destruct J as [(_&_&->)|[(_&_&->)|[(_&_&->)|(_&_&->)]]]; lia).
        clear J A1 A2. lia. }
      rewrite chk32_ok by (clear J; lia). cbn [bind]. eexists. split; [reflexivity|].
      split; [|iproj; auto].
      constructor; iproj; [assumption..|intros Hz; contradiction|].
      intros _. split; [clear J; lia|]. fold s.
      destruct J as [(-> & -> & ->)|[(-> & J & ->)|[(-> & -> & ->)|(-> & J & ->)]]].
      * left. split; [reflexivity|]. split; [ring|reflexivity].
      * right; left. split; [reflexivity|]. split; [|reflexivity]. destruct J as [-> | ->]; [left|right]; ring.
      * right; right; left. split; [reflexivity|]. split; [ring|reflexivity].
      * right; right; right. split; [reflexivity|]. split; [|reflexivity]. destruct J as [-> | ->]; [left|right]; ring.
    + destruct J as [(-> & J & ->)|[(-> & J & ->)|[(-> & J & ->)|(-> & J & ->)]]].
      * change (Z.land (0 + 1) 3) with 1. cbv iota. rewrite chk32_ok by lia. cbn [bind].
        eexists. split; [reflexivity|]. split; [|iproj; auto].
        constructor; iproj; [assumption..|intros Hz; contradiction|]. intros _. fold s. split; [lia|].
        right; left. split; [reflexivity|]. split; [right; lia|reflexivity].
      * change (Z.land (1 + 1) 3) with 2. cbv iota. cbn [bind].
        eexists. split; [reflexivity|]. split; [|iproj; auto].
        constructor; iproj; [assumption..|intros Hz; contradiction|]. intros _. fold s. split; [lia|].
        right; right; left. split; [reflexivity|]. split; [lia|reflexivity].
      * change (Z.land (2 + 1) 3) with 3. cbv iota. rewrite chk32_ok by lia. cbn [bind].
        rewrite chk32_ok by lia. cbn [bind].
        eexists. split; [reflexivity|]. split; [|iproj; auto].
        constructor; iproj; [assumption..|intros Hz; contradiction|]. intros _. fold s. split; [lia|].
        right; right; right. split; [reflexivity|]. split; [right; lia|lia].
      * change (Z.land (3 + 1) 3) with 0. cbv iota. cbn [bind].
        eexists. split; [reflexivity|]. split; [|iproj; auto].
        constructor; iproj; [assumption..|intros Hz; contradiction|]. intros _. fold s. split; [lia|].
        left. split; [reflexivity|]. split; [lia|reflexivity].
Qed.

(** Rescaling the position keeps it inside the new number of steps. *)
Lemma rescale_bound S step s' : 1 <= S <= 131072 -> 0 <= step < S -> 1 <= s' <= 131072 ->
  0 <= Z.quot (step * 256 + 128) S <= 255 /\
  0 <= Z.shiftr (Z.quot (step * 256 + 128) S * s') 8 < s'.
Proof.
  intros HS H Hs. rewrite quot_pos by lia. rewrite shiftr_div by lia. change (2 ^ 8) with 256.
  assert (F : 0 <= (step * 256 + 128) / S <= 255).
  { split; [apply Z.div_pos; lia|]. apply Z.lt_succ_r. apply Z.div_lt_upper_bound; lia. }
  split; [exact F|]. set (f := (step * 256 + 128) / S) in *. clearbody f.
  split; [apply Z.div_pos; nia|]. apply Z.div_lt_upper_bound; nia.
Qed.

(** Rounding is harmless for non-negative depths and for negative ones large
    enough for the number of steps. *)
Definition depth_good (sh d n : Z) : Prop := n <= 0 \/ 0 <= d \/ 256 * n < - d * P sh.

Lemma interval_set_inv sh st d n : interval_inv sh st -> 0 <= sh <= 28 -> depth_ok sh d -> n <= 131072 ->
  exists st', BKIntervalStateSetDeltaAndSteps st d n = Ok st' /\ interval_inv sh st' /\
    iv_steps st' = Z.max n 0 /\ (1 <= n -> iv_delta st' = d * P sh) /\
    (iv_roundBias st < P sh -> depth_good sh d n -> iv_roundBias st' < P sh) /\
    (iv_steps st = 0 -> iv_phase st' = 0 /\ iv_step st' = 0 /\ iv_value st' = 0).
Proof.
  intros I Hsh T Hn. destruct I as [I1 I2 I3 I4 I5 I6 I7] eqn:EI. unfold depth_ok in T.
  assert (HP := P_le sh Hsh).
  unfold BKIntervalStateSetDeltaAndSteps. rewrite clamp_steps by lia.
  destruct (Z.le_gt_cases n 0) as [N|N].
  { rewrite Z.max_r by lia. cbn [Z.eqb negb]. eexists. split; [reflexivity|].
    split; [|iproj; repeat split; auto; lia].
    constructor; iproj; try lia. reflexivity. }
  rewrite Z.max_l by lia. replace (n =? 0) with false by lia. cbn [negb].
  rewrite I1. fold (P sh). rewrite chk32_ok by lia. cbn [bind].
  destruct (negb (n =? iv_steps st) || negb (d * P sh =? iv_delta st)) eqn:CH.
  2:{ exists st. split; [reflexivity|]. split; [exact I|]. split; [lia|]. split; [lia|]. split; [auto|]. lia. }
  assert (ST : exists step, (if negb (iv_steps st =? 0) then
      let* step := chk32 (iv_step st * 2 ^ BK_STATE_STEP_FRAC_SHIFT) in
      let* step := chk32 (step + 2 ^ (BK_STATE_STEP_FRAC_SHIFT - 1)) in
      let* p := chk32 (Z.quot step (iv_steps st) * n) in Ok (Z.shiftr p BK_STATE_STEP_FRAC_SHIFT) else Ok 0) = Ok step /\ 0 <= step < n /\
      (iv_steps st = 0 -> step = 0)).
  { unfold BK_STATE_STEP_FRAC_SHIFT. change (2 ^ 8) with 256. change (2 ^ (8 - 1)) with 128.
    destruct (Z.eqb_spec (iv_steps st) 0) as [E|E]; cbn [negb]; [exists 0; split; [reflexivity|lia]|].
    destruct (I7 ltac:(lia)) as (H & _).
    destruct (rescale_bound (iv_steps st) (iv_step st) n ltac:(lia) ltac:(lia) ltac:(lia)) as (R1 & R2).
    rewrite chk32_ok by lia. cbn [bind]. rewrite chk32_ok by lia. cbn [bind]. cbv zeta.
    rewrite chk32_ok by nia. cbn [bind].
    eexists. split; [reflexivity|]. split; [exact R2|]. intros; contradiction. }
  destruct ST as (step & -> & Hst & Hst0). cbn [bind].
  set (D := d * P sh) in *.
  assert (QA := quot_abs D n ltac:(lia)).
  rewrite chk32_ok by lia. cbn [bind].
  assert (RB : exists b, round_bias D n (Z.quot D n) sh = Ok b /\ 0 <= b <= 268435456 /\ (depth_good sh d n -> b < P sh)).
  { unfold depth_good. destruct (Z.lt_ge_cases D 0) as [M|M].
    - destruct (round_bias_down D n sh Hsh ltac:(lia) ltac:(lia)) as (b & B1 & B2 & B3).
      exists b. split; [exact B1|]. split; [lia|]. intros [G|[G|G]]; [lia|unfold D in M; nia|]. apply B3.
      unfold D. rewrite Z.div_mul by lia. exact G.
    - destruct (round_bias_up D n sh Hsh ltac:(lia) ltac:(lia)) as (b & B1 & B2).
      exists b. split; [exact B1|]. split; [lia|]. intros _. lia. }
  destruct RB as (b & -> & B2 & B3). cbn [bind].
  assert (Hmul : D = D / P sh * P sh) by (unfold D; rewrite Z.div_mul by lia; reflexivity).
  destruct (mul_abs_le D n step ltac:(lia) ltac:(lia)) as [A1 A2].
  destruct (mul_abs_le D n (n - step) ltac:(lia) ltac:(lia)) as [C1 C2].
  assert (M1 : Z.abs (Z.quot D n * step) <= Z.abs D) by (destruct (Z.lt_ge_cases D 0); lia).
  assert (M2 : Z.abs (Z.quot D n * (n - step)) <= Z.abs D) by (destruct (Z.lt_ge_cases D 0); lia).
  clear A1 A2 C1 C2. set (s := Z.quot D n) in *.
  assert (PH : iv_phase st = 0 \/ iv_phase st = 1 \/ iv_phase st = 2 \/ iv_phase st = 3).
  { destruct (Z.eq_dec (iv_steps st) 0) as [E|E]; [destruct (I6 E) as (_ & _ & -> & _); tauto|].
    destruct (I7 ltac:(lia)) as (_ & J). cbv zeta in J. tauto. }
  assert (PH0 : iv_steps st = 0 -> iv_phase st = 0) by (intros E; destruct (I6 E); tauto).
  clear EI I. destruct PH as [E|[E|[E|E]]]; rewrite E in *; cbv iota.
  - rewrite chk32_ok by lia. cbn [bind]. eexists. split; [reflexivity|]. split.
    + constructor; iproj; [reflexivity|assumption|assumption|lia|assumption|intros Hz; exfalso; lia|]. intros _. split; [lia|]. fold s. left. auto.
    + iproj. split; [lia|]. split; [auto|]. split; [auto|]. intros E0. specialize (Hst0 E0). subst step.
      split; [reflexivity|]. split; [reflexivity|]. lia.
  - rewrite chk32_ok by lia. cbn [bind]. rewrite chk32_ok by lia. cbn [bind]. eexists. split; [reflexivity|]. split.
    + constructor; iproj; [reflexivity|assumption|assumption|lia|assumption|intros Hz; exfalso; lia|]. intros _. split; [lia|]. fold s. right; left. auto.
    + iproj. split; [lia|]. split; [auto|]. split; [auto|]. intros E0. specialize (PH0 E0). discriminate.
  - rewrite chk32_ok by lia. cbn [bind]. rewrite chk32_ok by (rewrite Z.mul_opp_l; lia). cbn [bind]. eexists. split; [reflexivity|]. split.
    + constructor; iproj; [reflexivity|assumption|assumption|lia|assumption|intros Hz; exfalso; lia|]. intros _. split; [lia|]. fold s. right; right; left. auto.
    + iproj. split; [lia|]. split; [auto|]. split; [auto|]. intros E0. specialize (PH0 E0). discriminate.
  - rewrite chk32_ok by lia. cbn [bind]. rewrite chk32_ok by (rewrite Z.mul_opp_l; lia). cbn [bind]. eexists. split; [reflexivity|]. split.
    + constructor; iproj; [reflexivity|assumption|assumption|lia|assumption|intros Hz; exfalso; lia|]. intros _. split; [lia|]. fold s. right; right; right. auto.
    + iproj. split; [lia|]. split; [auto|]. split; [auto|]. intros E0. specialize (PH0 E0). discriminate.
Qed.

Lemma interval_get sh st : interval_inv sh st -> 0 <= sh <= 28 ->
  BKIntervalStateGetValue st = Ok ((iv_value st + iv_roundBias st) / P sh).
Proof.
  intros I Hsh. assert (VB := interval_value_bound sh st I). destruct I as [I1 I2 I3 I4 I5 I6 I7].
  unfold BKIntervalStateGetValue. rewrite chk32_ok by lia. cbn [bind]. rewrite I1, shr_P by lia. reflexivity.
Qed.

Lemma interval_report_bound sh st d : interval_inv sh st -> 0 <= sh <= 28 -> iv_roundBias st < P sh ->
  iv_delta st = d * P sh -> exists r, BKIntervalStateGetValue st = Ok r /\ - Z.abs d <= r <= Z.abs d.
Proof.
  intros I Hsh B E. rewrite (interval_get sh st I Hsh). eexists. split; [reflexivity|].
  assert (VB := interval_value_bound sh st I). assert (HP := P_pos sh ltac:(lia)).
  assert (B0 := ii_bias _ _ I). rewrite E, Z.abs_mul in VB. rewrite (Z.abs_eq (P sh)) in VB by lia.
  split.
  - apply Z.div_le_lower_bound; nia.
  - apply Z.lt_succ_r. apply Z.div_lt_upper_bound; nia.
Qed.

(** ** Exact wave from a fresh start *)

(** The triangle wave: quarter [pos / n] of the cycle, [n] steps per quarter. *)
Definition wave_value (D n pos : Z) : Z :=
  let s := Z.quot D n in let k := pos mod n in
  match pos / n with
  | 0 => s * k | 1 => D - s * k | 2 => - (s * k) | _ => - D + s * k
  end.
Definition wave_delta (D n pos : Z) : Z :=
  match pos / n with 0 | 3 => Z.quot D n | _ => - Z.quot D n end.
Definition wave_at (D n b sh pos : Z) : interval :=
  mk_interval D n (wave_value D n pos) (wave_delta D n pos) b sh (pos / n) (pos mod n).

Lemma pos_split n pos : 1 <= n -> 0 <= pos < 4 * n ->
  exists p k, pos = n * p + k /\ 0 <= k < n /\ 0 <= p <= 3 /\ pos / n = p /\ pos mod n = k.
Proof.
  intros Hn H. exists (pos / n), (pos mod n).
  assert (K := Z.div_mod pos n ltac:(lia)). assert (L := Z.mod_pos_bound pos n ltac:(lia)).
  assert (0 <= pos / n) by (apply Z.div_pos; lia). assert (pos / n < 4) by (apply Z.div_lt_upper_bound; lia).
  repeat split; lia.
Qed.

Lemma div_mod_at n p k : 1 <= n -> 0 <= k < n -> (n * p + k) / n = p /\ (n * p + k) mod n = k.
Proof.
  intros. replace (n * p + k) with (k + p * n) by ring.
  rewrite Z.div_add, Z.mod_add by lia. rewrite Z.div_small, Z.mod_small by lia. lia.
Qed.

Lemma wave_step D n b sh pos : 1 <= n <= 131072 -> 0 <= pos < 4 * n -> -1073741824 < D < 1073741824 ->
  BKIntervalStateStep (wave_at D n b sh pos) = Ok (wave_at D n b sh ((pos + 1) mod (4 * n))).
Proof.
  intros Hn Hp HD. destruct (pos_split n pos ltac:(lia) Hp) as (p & k & E & Hk & Hq & E1 & E2).
  assert (QA := quot_abs D n ltac:(lia)).
  destruct (mul_abs_le D n k ltac:(lia) ltac:(lia)) as [A1 A2].
  assert (M1 : Z.abs (Z.quot D n * k) <= Z.abs D) by (destruct (Z.lt_ge_cases D 0); lia).
  assert (M3 : Z.abs (D - Z.quot D n * k) <= Z.abs D) by (destruct (Z.lt_ge_cases D 0); lia).
  clear A1 A2. set (s := Z.quot D n) in *.
  unfold BKIntervalStateStep, wave_at. iproj. replace (n =? 0) with false by lia. cbn [negb].
  rewrite E1, E2. destruct (Z.ltb_spec k (n - 1)) as [L|L].
  - assert (NX : (pos + 1) mod (4 * n) = n * p + (k + 1)) by (rewrite Z.mod_small; nia).
    destruct (div_mod_at n p (k + 1) ltac:(lia) ltac:(lia)) as (X1 & X2).
    assert (V : wave_value D n (n * p + (k + 1)) = wave_value D n pos + wave_delta D n pos).
    { unfold wave_value, wave_delta. rewrite E1, E2, X1, X2. fold s.
      assert (C : p = 0 \/ p = 1 \/ p = 2 \/ p = 3) by lia. destruct C as [-> | [-> | [-> | ->]]]; ring. }
    assert (W : wave_delta D n (n * p + (k + 1)) = wave_delta D n pos) by (unfold wave_delta; rewrite E1, X1; reflexivity).
    rewrite NX, V, W, X1, X2. rewrite chk32_ok; [reflexivity|].
    unfold wave_value, wave_delta. rewrite E1, E2. fold s.
    assert (C : p = 0 \/ p = 1 \/ p = 2 \/ p = 3) by lia. destruct C as [-> | [-> | [-> | ->]]]; lia.
  - assert (K : k = n - 1) by lia.
    assert (C : p = 0 \/ p = 1 \/ p = 2 \/ p = 3) by lia. destruct C as [-> | [-> | [-> | ->]]].
    + assert (NX : (pos + 1) mod (4 * n) = n * 1 + 0) by (rewrite Z.mod_small; lia).
      destruct (div_mod_at n 1 0 ltac:(lia) ltac:(lia)) as (X1 & X2). rewrite NX.
      unfold wave_value, wave_delta. rewrite E1, X1, X2. fold s.
      change (Z.land (0 + 1) 3) with 1. cbv iota. rewrite chk32_ok by lia. cbn [bind fst snd]. do 2 f_equal. lia.
    + assert (NX : (pos + 1) mod (4 * n) = n * 2 + 0) by (rewrite Z.mod_small; lia).
      destruct (div_mod_at n 2 0 ltac:(lia) ltac:(lia)) as (X1 & X2). rewrite NX.
      unfold wave_value, wave_delta. rewrite E1, X1, X2. fold s.
      change (Z.land (1 + 1) 3) with 2. cbv iota. cbn [bind fst snd]. do 2 f_equal. lia.
    + assert (NX : (pos + 1) mod (4 * n) = n * 3 + 0) by (rewrite Z.mod_small; lia).
      destruct (div_mod_at n 3 0 ltac:(lia) ltac:(lia)) as (X1 & X2). rewrite NX.
      unfold wave_value, wave_delta. rewrite E1, X1, X2. fold s.
      change (Z.land (2 + 1) 3) with 3. cbv iota. rewrite chk32_ok by lia. cbn [bind fst snd].
      rewrite chk32_ok by lia. cbn [bind fst snd]. do 2 f_equal; lia.
    + assert (NX : (pos + 1) mod (4 * n) = n * 0 + 0).
      { replace (pos + 1) with (1 * (4 * n)) by lia. rewrite Z.mod_mul by lia. lia. }
      destruct (div_mod_at n 0 0 ltac:(lia) ltac:(lia)) as (X1 & X2). rewrite NX.
      unfold wave_value, wave_delta. rewrite E1, X1, X2. fold s.
      change (Z.land (3 + 1) 3) with 0. cbv iota. cbn [bind fst snd]. do 2 f_equal. lia.
Qed.

Fixpoint interval_steps (k : nat) (st : interval) : res interval :=
  match k with O => Ok st | S k => let* st := BKIntervalStateStep st in interval_steps k st end.

Lemma wave_steps D n b sh k : forall pos, 1 <= n <= 131072 -> 0 <= pos < 4 * n -> -1073741824 < D < 1073741824 ->
  interval_steps k (wave_at D n b sh pos) = Ok (wave_at D n b sh ((pos + Z.of_nat k) mod (4 * n))).
Proof.
  induction k as [|k IH]; intros pos Hn Hp HD.
  - cbn [interval_steps]. rewrite Z.add_0_r, Z.mod_small by lia. reflexivity.
  - cbn [interval_steps]. rewrite wave_step by assumption. cbn [bind].
    rewrite IH; auto; [|apply Z.mod_pos_bound; lia].
    rewrite Zplus_mod_idemp_l. do 3 f_equal. lia.
Qed.

Lemma interval_steps_inv sh k : forall st, interval_inv sh st -> exists st', interval_steps k st = Ok st' /\
  interval_inv sh st' /\ iv_roundBias st' = iv_roundBias st /\ iv_delta st' = iv_delta st /\ iv_steps st' = iv_steps st.
Proof.
  induction k as [|k IH]; intros st I; cbn [interval_steps].
  - exists st. auto.
  - destruct (interval_step_inv sh st I) as (st1 & E & I1 & F1 & F2 & F3). rewrite E. cbn [bind].
    destruct (IH st1 I1) as (st2 & E2 & I2 & G1 & G2 & G3). exists st2. split; [exact E2|]. split; [exact I2|].
    repeat split; congruence.
Qed.

(** From a state at rest the state after setting depth and steps is the start of the wave. *)
Lemma interval_fresh sh st d n : interval_inv sh st -> 0 <= sh <= 28 -> iv_steps st = 0 -> depth_ok sh d ->
  1 <= n <= 131072 -> exists b, BKIntervalStateSetDeltaAndSteps st d n = Ok (wave_at (d * P sh) n b sh 0) /\
  interval_inv sh (wave_at (d * P sh) n b sh 0) /\
  0 <= b /\ (iv_roundBias st < P sh -> depth_good sh d n -> b < P sh).
Proof.
  intros I Hsh E0 T Hn.
  destruct (interval_set_inv sh st d n I Hsh T ltac:(lia)) as (st' & E & I' & F1 & F2 & F3 & F4).
  destruct (F4 E0) as (G1 & G2 & G3). specialize (F2 ltac:(lia)). rewrite Z.max_l in F1 by lia.
  assert (SD : iv_stepDelta st' = Z.quot (d * P sh) n).
  { destruct (ii_on _ _ I' ltac:(lia)) as (_ & J). cbv zeta in J. rewrite F1, F2, G1 in J.
    destruct J as [J|[J|[J|J]]]; [tauto|lia|lia|lia]. }
  assert (Heq : st' = wave_at (d * P sh) n (iv_roundBias st') sh 0).
  { destruct (div_mod_at n 0 0 ltac:(lia) ltac:(lia)) as (X1 & X2). rewrite Z.mul_0_r, Z.add_0_r in X1, X2.
    unfold wave_at, wave_value, wave_delta. rewrite X1, X2, Z.mul_0_r.
    assert (S1 := ii_sh _ _ I'). destruct st'; iproj. subst. reflexivity. }
  exists (iv_roundBias st'). rewrite <- Heq. split; [exact E|]. split; [exact I'|]. split; [apply (ii_bias _ _ I')|exact F3].
Qed.

Lemma interval_init_inv m : 0 <= BKClamp (BKGetMaxValueShift m - 1) 0 30 <= 30 /\
  interval_inv (BKClamp (BKGetMaxValueShift m - 1) 0 30) (BKIntervalStateInit m).
Proof.
  assert (K := max_shift_range m).
  split; [unfold BKClamp; repeat (match goal with |- context [if ?c then _ else _] => destruct c eqn:? end); lia|].
  constructor; cbn [BKIntervalStateInit iv_delta iv_steps iv_value iv_stepDelta iv_roundBias iv_valueShift iv_phase iv_step]; try lia; try reflexivity.
Qed.

Definition iop_ok (sh : Z) (o : interval_op) : Prop :=
  match o with ISet d n => depth_ok sh d /\ n <= 131072 | IStep => True end.
Definition iop_good (sh : Z) (o : interval_op) : Prop :=
  match o with ISet d n => depth_good sh d n | IStep => True end.

Lemma interval_run_total sh ops : forall st, interval_inv sh st -> 0 <= sh <= 28 -> Forall (iop_ok sh) ops ->
  exists st', interval_run st ops = Ok st' /\ interval_inv sh st' /\
  (iv_roundBias st < P sh -> Forall (iop_good sh) ops -> iv_roundBias st' < P sh).
Proof.
  induction ops as [|o ops IH]; intros st I Hsh F; cbn [interval_run].
  - exists st. auto.
  - inversion F as [|? ? Ho Fo]; subst.
    assert (S : exists st1, interval_step st o = Ok st1 /\ interval_inv sh st1 /\
       (iv_roundBias st < P sh -> iop_good sh o -> iv_roundBias st1 < P sh)).
    { destruct o as [d n|]; cbn [interval_step iop_ok iop_good] in *.
      - destruct Ho as (T & Hn). destruct (interval_set_inv sh st d n I Hsh T Hn) as (st1 & E & I1 & _ & _ & B & _).
        exists st1. auto.
      - destruct (interval_step_inv sh st I) as (st1 & E & I1 & B & _). exists st1. split; [exact E|]. split; [exact I1|].
        intros; lia. }
    destruct S as (st1 & E1 & I1 & B1). rewrite E1. cbn [bind].
    destruct (IH st1 I1 Hsh Fo) as (st2 & E2 & I2 & B2). exists st2. split; [exact E2|]. split; [exact I2|].
    intros B G. inversion G; subst. auto.
Qed.
