(** Lemmas about slides and intervals. *)
From Verif Require Import CIntFacts InterpModel.

(* Division facts are supplied by hand in this file. *)
Ltac Zify.zify_post_hook ::= idtac.

Definition P (sh : Z) : Z := 2 ^ sh.

Lemma P_pos sh : 0 <= sh -> 0 < P sh.
Proof. intros. unfold P. apply Z.pow_pos_nonneg; lia. Qed.

Lemma P_le sh : 0 <= sh <= 28 -> 1 <= P sh <= 268435456.
Proof.
  intros. unfold P. split.
  - assert (0 < 2 ^ sh) by (apply Z.pow_pos_nonneg; lia). lia.
  - change 268435456 with (2 ^ 28). apply Z.pow_le_mono_r; lia.
Qed.

Lemma shr_P v sh : 0 <= sh -> Z.shiftr v sh = v / P sh.
Proof. intros. apply shiftr_div. assumption. Qed.

(** ** Quotients *)
Lemma quot_pos a b : 0 <= a -> 0 < b -> Z.quot a b = a / b.
Proof. intros. apply Z.quot_div_nonneg; lia. Qed.

Lemma quot_neg a b : 0 <= a -> 0 < b -> Z.quot (- a) b = - (a / b).
Proof. intros. rewrite Z.quot_opp_l by lia. rewrite quot_pos by lia. reflexivity. Qed.

Lemma quot_neg_r a b : 0 <= a -> 0 < b -> Z.quot a (- b) = - (a / b).
Proof. intros. rewrite Z.quot_opp_r by lia. rewrite quot_pos by lia. reflexivity. Qed.

Lemma div_bounds a b : 0 < b -> b * (a / b) <= a < b * (a / b) + b.
Proof. intros. assert (K := Z.div_mod a b ltac:(lia)). assert (L := Z.mod_pos_bound a b ltac:(lia)). lia. Qed.

(** [A*2*d <= 256*s] and [256*s*B <= E] give [A*B*2*d <= E]. *)
Lemma bias_core A B d s E : 0 <= A -> 0 <= B -> 0 < d -> 0 < s ->
  A * (2 * d) <= s * 256 -> B * (256 * s) <= E -> A * B * (2 * d) <= E.
Proof.
  intros HA HB Hd Hs L1 L2.
  assert (L3 : (A * (2 * d)) * B <= (s * 256) * B) by (apply Z.mul_le_mono_nonneg_r; lia).
  replace (A * B * (2 * d)) with (A * (2 * d) * B) by ring. lia.
Qed.

Lemma lt_core x d p : 0 < d -> x * (2 * d) < (2 * d) * p -> x < p.
Proof. intros. apply Z.mul_lt_mono_pos_r with (2 * d); lia. Qed.

(** ** Round bias *)
Lemma round_bias_up D s sh : 0 <= sh <= 28 -> 1 <= s <= 131072 -> 0 <= D < 2147483648 ->
  exists b, round_bias D s (Z.quot D s) sh = Ok b /\ 0 <= b < P sh.
Proof.
  intros Hsh Hs HD. unfold round_bias, BK_STATE_STEP_FRAC_SHIFT. change (2 ^ 8) with 256.
  assert (HP := P_le sh Hsh). rewrite shr_P by lia.
  assert (Hd := div_bounds D (P sh) ltac:(lia)).
  assert (Hd0 : 0 <= D / P sh) by (apply Z.div_pos; lia).
  set (d := D / P sh) in *. clearbody d. destruct (Z.eqb_spec d 0) as [E|E]; [exists 0; split; [reflexivity|lia]|].
  rewrite chk32_ok by lia. cbn [bind].
  rewrite quot_pos by lia.
  assert (Hq := div_bounds (s * 256) d ltac:(lia)).
  assert (Hq0 : 0 <= s * 256 / d) by (apply Z.div_pos; lia).
  set (q := s * 256 / d) in *. clearbody q. assert (q <= 33554432) by nia.
  rewrite chk32_ok by lia. cbn [bind].
  rewrite (quot_pos q 2) by lia. rewrite (quot_pos D s) by lia. rewrite shiftr_div by lia. change (2 ^ 8) with 256.
  assert (Ha := div_bounds q 2 ltac:(lia)). assert (Ha0 : 0 <= q / 2) by (apply Z.div_pos; lia).
  assert (Hsd := div_bounds D s ltac:(lia)).
  assert (Hsd0 : 0 <= D / s) by (apply Z.div_pos; lia).
  set (sd := D / s) in *. clearbody sd.
  assert (Hb := div_bounds sd 256 ltac:(lia)). assert (Hb0 : 0 <= sd / 256) by (apply Z.div_pos; lia).
  set (A := q / 2) in *. set (B := sd / 256) in *. clearbody A B.
  assert (L1 : A * (2 * d) <= s * 256).
  { apply Z.le_trans with (q * d); [|lia]. replace (A * (2 * d)) with ((2 * A) * d) by ring. apply Z.mul_le_mono_nonneg_r; lia. }
  assert (L2 : B * (256 * s) <= D).
  { apply Z.le_trans with (sd * s); [|lia]. replace (B * (256 * s)) with ((256 * B) * s) by ring. apply Z.mul_le_mono_nonneg_r; lia. }
  assert (L4 := bias_core A B d s D ltac:(lia) ltac:(lia) ltac:(lia) ltac:(lia) L1 L2).
  assert (L5 : A * B < P sh).
  { apply (lt_core _ d); [lia|]. clear L1 L2 Hq Hsd. nia. }
  assert (L6 : 0 <= A * B) by (apply Z.mul_nonneg_nonneg; lia).
  exists (A * B). rewrite chk32_ok by lia. split; [reflexivity|lia].
Qed.

Lemma round_bias_down D s sh : 0 <= sh <= 28 -> 1 <= s <= 131072 -> -2147483648 <= D < 0 ->
  exists b, round_bias D s (Z.quot D s) sh = Ok b /\ 0 <= b <= 151999999 /\
            (256 * s < - (D / P sh) * P sh -> b < P sh).
Proof.
  intros Hsh Hs HD. unfold round_bias, BK_STATE_STEP_FRAC_SHIFT. change (2 ^ 8) with 256.
  assert (HP := P_le sh Hsh). rewrite shr_P by lia.
  assert (Hd := div_bounds D (P sh) ltac:(lia)).
  assert (Hd0 : D / P sh < 0) by (apply Z.div_lt_upper_bound; lia).
  set (d' := D / P sh) in *. clearbody d'. remember (- d') as d eqn:Ed.
  assert (Ed' : d' = - d) by lia. subst d'. clear Ed.
  replace (- d =? 0) with false by lia.
  rewrite chk32_ok by lia. cbn [bind].
  rewrite quot_neg_r by lia.
  assert (Hq := div_bounds (s * 256) d ltac:(lia)).
  assert (Hq0 : 0 <= s * 256 / d) by (apply Z.div_pos; lia).
  set (q := s * 256 / d) in *. clearbody q. assert (q <= 33554432) by nia.
  rewrite chk32_ok by lia. cbn [bind].
  rewrite (quot_neg q 2) by lia.
  replace (Z.quot D s) with (- (- D / s)) by (rewrite <- quot_neg by lia; f_equal; lia).
  rewrite shiftr_div by lia. change (2 ^ 8) with 256.
  assert (Ha := div_bounds q 2 ltac:(lia)). assert (Ha0 : 0 <= q / 2) by (apply Z.div_pos; lia).
  assert (Hsd := div_bounds (- D) s ltac:(lia)).
  assert (Hsd0 : 0 <= - D / s) by (apply Z.div_pos; lia).
  set (sd := - D / s) in *. clearbody sd.
  assert (Hb := div_bounds (- sd) 256 ltac:(lia)). assert (Hb0 : - sd / 256 <= 0) by (apply Z.div_le_upper_bound; lia).
  set (A := q / 2) in *. set (B' := - sd / 256) in *. clearbody A B'.
  remember (- B') as B eqn:EB. assert (EB' : B' = - B) by lia. subst B'. clear EB.
  assert (L1 : A * (2 * d) <= s * 256).
  { apply Z.le_trans with (q * d); [|lia]. replace (A * (2 * d)) with ((2 * A) * d) by ring. apply Z.mul_le_mono_nonneg_r; lia. }
  assert (L2 : B * (256 * s) <= - D + 255 * s).
  { apply Z.le_trans with ((sd + 255) * s); [|lia]. replace (B * (256 * s)) with ((256 * B) * s) by ring. apply Z.mul_le_mono_nonneg_r; lia. }
  assert (L4 := bias_core A B d s (- D + 255 * s) ltac:(lia) ltac:(lia) ltac:(lia) ltac:(lia) L1 L2).
  assert (L5 : - D <= d * P sh) by lia.
  assert (L7 : 0 <= A * B) by (apply Z.mul_nonneg_nonneg; lia).
  assert (L8 : 255 * s <= 255 * s * d) by (clear - Hs Hd0; nia).
  assert (L6 : A * B * 2 <= P sh + 255 * s).
  { apply Z.mul_le_mono_pos_r with d; [lia|].
    replace (A * B * 2 * d) with (A * B * (2 * d)) by ring.
    replace ((P sh + 255 * s) * d) with (d * P sh + 255 * s * d) by ring. lia. }
  exists (A * B). replace (- A * - B) with (A * B) by ring.
  rewrite chk32_ok by lia. split; [reflexivity|]. split; [lia|].
  intros G. apply (lt_core _ d); [lia|]. rewrite Z.opp_involutive in G || idtac.
  replace (2 * d * P sh) with (d * P sh + d * P sh) by ring. lia.
Qed.

(** ** Slides *)
Record slide_inv (sh : Z) (st : slide) : Prop := {
  si_sh : sl_valueShift st = sh;
  si_value : -1073741824 < sl_value st <= 1073741824;
  si_end : -1073741824 < sl_endValue st <= 1073741824;
  si_mult : sl_endValue st = sl_endValue st / P sh * P sh;
  si_bias : 0 <= sl_roundBias st <= 268435456;
  si_steps : 0 <= sl_steps st <= 65536;
  si_step : 0 <= sl_step st <= 65536;
  si_dir : sl_step st > 0 ->
    (0 <= sl_stepDelta st /\ sl_value st + sl_step st * sl_stepDelta st <= sl_endValue st) \/
    (sl_stepDelta st <= 0 /\ sl_endValue st <= sl_value st + sl_step st * sl_stepDelta st)
}.

(** The bias never reaches one unit of the reported value. *)
Definition bias_ok (sh : Z) (st : slide) : Prop := sl_roundBias st < P sh.

Definition target_ok (sh v : Z) : Prop := -1073741824 < v * P sh <= 1073741824.
Definition depth_ok (sh v : Z) : Prop := -1073741824 < v * P sh < 1073741824.

(** Slides whose rounding is harmless: upwards, or downwards by a sufficient
    distance for the number of steps. *)
Definition slide_good (st : slide) (v n : Z) : Prop :=
  n <= 0 \/ sl_value st <= v * P (sl_valueShift st) \/
  256 * n < - ((v * P (sl_valueShift st) - sl_value st) / P (sl_valueShift st)) * P (sl_valueShift st).

Lemma clamp_steps n : n <= 131072 -> BKClamp n 0 BK_STATE_MAX_STEPS = Z.max n 0.
Proof.
  intros. unfold BKClamp, BK_STATE_MAX_STEPS. destruct (n <? 0) eqn:?; [lia|].
  destruct (n >? 8388608) eqn:?; lia.
Qed.

Lemma set_zero sh st v n : slide_inv sh st -> 0 <= sh <= 28 -> target_ok sh v -> n <= 0 ->
  exists st', BKSlideStateSetValueAndSteps st v n = Ok st' /\ slide_inv sh st' /\
    sl_roundBias st' = sl_roundBias st /\ sl_step st' = 0 /\ sl_value st' = v * P sh /\
    sl_endValue st' = v * P sh /\ sl_stepDelta st' = 0 /\ sl_steps st' = 0.
Proof.
  intros I Hsh T Hn. unfold target_ok in T. destruct I as [I1 I2 I3 I4 I5 I6 I7 I8].
  unfold BKSlideStateSetValueAndSteps. rewrite clamp_steps by lia. rewrite Z.max_r by lia.
  cbn [Z.eqb negb]. rewrite I1. fold (P sh). rewrite chk32_ok by lia. cbn [bind].
  eexists. split; [reflexivity|].
  split; [|cbn [sl_roundBias sl_step sl_value sl_endValue sl_stepDelta sl_steps]; repeat split; lia].
  assert (HP := P_pos sh ltac:(lia)).
  constructor; cbn [sl_valueShift sl_value sl_endValue sl_roundBias sl_steps sl_step sl_stepDelta]; try lia.
  rewrite Z.div_mul by lia. reflexivity.
Qed.

Lemma quot_dir D s : 1 <= s ->
  (0 <= D -> 0 <= Z.quot D s /\ s * Z.quot D s <= D) /\
  (D < 0 -> Z.quot D s <= 0 /\ D <= s * Z.quot D s).
Proof.
  intros Hs. split; intros HD.
  - rewrite quot_pos by lia. assert (K := div_bounds D s ltac:(lia)).
    assert (0 <= D / s) by (apply Z.div_pos; lia). lia.
  - replace D with (- - D) at 1 3 by lia. rewrite quot_neg by lia.
    assert (K := div_bounds (- D) s ltac:(lia)). assert (0 <= - D / s) by (apply Z.div_pos; lia). lia.
Qed.

Lemma set_pos sh st v n : slide_inv sh st -> 0 <= sh <= 28 -> target_ok sh v -> 1 <= n <= 65536 ->
  exists st', BKSlideStateSetValueAndSteps st v n = Ok st' /\ slide_inv sh st' /\
    sl_step st' = n /\ sl_steps st' = n /\ sl_value st' = sl_value st /\ sl_endValue st' = v * P sh /\
    sl_stepDelta st' = Z.quot (v * P sh - sl_value st) n /\
    (slide_good st v n -> bias_ok sh st').
Proof.
  intros I Hsh T Hn. unfold target_ok in T. destruct I as [I1 I2 I3 I4 I5 I6 I7 I8].
  assert (HP := P_le sh Hsh).
  unfold BKSlideStateSetValueAndSteps. rewrite clamp_steps by lia. rewrite Z.max_l by lia.
  replace (n =? 0) with false by lia. cbn [negb]. rewrite I1. fold (P sh).
  rewrite chk32_ok by lia. cbn [bind]. rewrite chk32_ok by lia. cbn [bind].
  set (D := v * P sh - sl_value st) in *.
  destruct (quot_dir D n ltac:(lia)) as [Q1 Q2].
  assert (QB : -2147483648 <= Z.quot D n <= 2147483647).
  { destruct (Z.lt_ge_cases D 0) as [N|N]; [specialize (Q2 N)|specialize (Q1 N)]; nia. }
  rewrite chk32_ok by lia. cbn [bind].
  assert (RB : exists b, round_bias D n (Z.quot D n) sh = Ok b /\ 0 <= b <= 268435456 /\
               (0 <= D \/ 256 * n < - (D / P sh) * P sh -> b < P sh)).
  { destruct (Z.lt_ge_cases D 0) as [N|N].
    - destruct (round_bias_down D n sh Hsh ltac:(lia) ltac:(lia)) as (b & B1 & B2 & B3).
      exists b. split; [exact B1|]. split; [lia|]. intros [G|G]; [lia|]. exact (B3 G).
    - destruct (round_bias_up D n sh Hsh ltac:(lia) ltac:(lia)) as (b & B1 & B2).
      exists b. split; [exact B1|]. split; [lia|]. intros _. lia. }
  destruct RB as (b & B1 & B2 & B3). rewrite B1. cbn [bind].
  eexists. split; [reflexivity|]. split; [|cbn [sl_step sl_steps sl_value sl_endValue sl_stepDelta]].
  - constructor; cbn [sl_valueShift sl_value sl_endValue sl_roundBias sl_steps sl_step sl_stepDelta]; try lia.
    { rewrite Z.div_mul by lia. reflexivity. }
  - repeat split; try lia. unfold slide_good, bias_ok; cbn [sl_roundBias]. rewrite I1. fold D.
    intros [G|[G|G]]; [lia| |]; apply B3; [left; unfold D; lia|right; exact G].
Qed.

Lemma step_inv sh st : slide_inv sh st -> exists st', BKSlideStateStep st = Ok st' /\ slide_inv sh st' /\
  sl_endValue st' = sl_endValue st /\ sl_roundBias st' = sl_roundBias st /\
  sl_stepDelta st' = sl_stepDelta st /\ sl_steps st' = sl_steps st /\
  sl_step st' = Z.max 0 (sl_step st - 1) /\
  sl_value st' = (if sl_step st =? 0 then sl_value st else
                  if sl_step st =? 1 then sl_endValue st else sl_value st + sl_stepDelta st).
Proof.
  intros [I1 I2 I3 I4 I5 I6 I7 I8]. unfold BKSlideStateStep.
  destruct (sl_step st >? 0) eqn:E.
  - specialize (I8 ltac:(lia)).
    assert (V : -1073741824 < sl_value st + sl_stepDelta st <= 1073741824) by nia.
    rewrite chk32_ok by lia. cbn [bind]. eexists. split; [reflexivity|].
    split; [|cbn [sl_step sl_steps sl_value sl_endValue sl_stepDelta sl_roundBias]].
    + constructor; cbn [sl_valueShift sl_value sl_endValue sl_roundBias sl_steps sl_step sl_stepDelta]; try assumption; try lia.
      * destruct (sl_step st - 1 <=? 0); lia.
      * intros G. replace (sl_step st - 1 <=? 0) with false by lia. nia.
    + repeat split; try lia. replace (sl_step st =? 0) with false by lia.
      destruct (sl_step st - 1 <=? 0) eqn:G; destruct (sl_step st =? 1) eqn:G'; lia.
  - exists st. split; [reflexivity|]. split; [constructor; assumption|]. repeat split; try lia.
    replace (sl_step st =? 0) with true by lia. reflexivity.
Qed.

(** State after [k] steps. *)
Lemma steps_spec sh k : forall st, slide_inv sh st -> exists st', slide_steps k st = Ok st' /\ slide_inv sh st' /\
  sl_endValue st' = sl_endValue st /\ sl_roundBias st' = sl_roundBias st /\
  sl_step st' = Z.max 0 (sl_step st - Z.of_nat k) /\
  sl_value st' = (if sl_step st =? 0 then sl_value st else
                  if Z.of_nat k <? sl_step st then sl_value st + Z.of_nat k * sl_stepDelta st else sl_endValue st).
Proof.
  induction k as [|k IH]; intros st I.
  - exists st. cbn [slide_steps]. split; [reflexivity|]. split; [exact I|]. destruct I as [I1 I2 I3 I4 I5 I6 I7 I8].
    repeat split; try lia. destruct (sl_step st =? 0) eqn:?; [reflexivity|].
    replace (Z.of_nat 0 <? sl_step st) with true by lia. lia.
  - cbn [slide_steps]. destruct (step_inv sh st I) as (st1 & E1 & J & F1 & F2 & F3 & F4 & F5 & F6).
    rewrite E1. cbn [bind]. destruct (IH st1 J) as (st2 & E2 & J2 & G1 & G2 & G3 & G4).
    exists st2. split; [exact E2|]. split; [exact J2|].
    destruct I as [I1 I2 I3 I4 I5 I6 I7 I8].
    repeat split; try lia. rewrite G4, F1, F3, F5, F6.
    destruct (sl_step st =? 0) eqn:S0; [replace (Z.max 0 (sl_step st - 1) =? 0) with true by lia; reflexivity|].
    destruct (sl_step st =? 1) eqn:S1.
    + replace (Z.max 0 (sl_step st - 1) =? 0) with true by lia.
      replace (Z.of_nat (S k) <? sl_step st) with false by lia. reflexivity.
    + replace (Z.max 0 (sl_step st - 1) =? 0) with false by lia.
      destruct (Z.of_nat k <? Z.max 0 (sl_step st - 1)) eqn:S2.
      * replace (Z.of_nat (S k) <? sl_step st) with true by lia. lia.
      * replace (Z.of_nat (S k) <? sl_step st) with false by lia. reflexivity.
Qed.

Lemma get_value sh st : slide_inv sh st -> 0 <= sh <= 28 ->
  BKSlideStateGetValue st = Ok ((sl_value st + sl_roundBias st) / P sh).
Proof.
  intros [I1 I2 I3 I4 I5 I6 I7 I8] Hsh. unfold BKSlideStateGetValue.
  rewrite chk32_ok by lia. cbn [bind]. rewrite I1, shr_P by lia. reflexivity.
Qed.

Lemma get_exact sh st v : slide_inv sh st -> bias_ok sh st -> 0 <= sh <= 28 ->
  sl_value st = v * P sh -> BKSlideStateGetValue st = Ok v.
Proof.
  intros I B Hsh E. rewrite (get_value sh st I Hsh). f_equal. rewrite E.
  assert (HP := P_pos sh ltac:(lia)). destruct I as [I1 I2 I3 I4 I5 I6 I7 I8]. unfold bias_ok in B.
  rewrite Z.add_comm, Z.div_add by lia. rewrite Z.div_small by lia. lia.
Qed.

Lemma slide_target sh st v n : slide_inv sh st -> bias_ok sh st -> 0 <= sh <= 28 -> target_ok sh v ->
  n <= 65536 -> slide_good st v n ->
  exists st1, BKSlideStateSetValueAndSteps st v n = Ok st1 /\
    forall k, n <= Z.of_nat k -> exists st2, slide_steps k st1 = Ok st2 /\ BKSlideStateGetValue st2 = Ok v.
Proof.
  intros I B Hsh T Hn G. destruct (Z.le_gt_cases n 0) as [N|N].
  - destruct (set_zero sh st v n I Hsh T N) as (st1 & E1 & I' & F1 & F2 & F3 & F4 & F5 & F6).
    exists st1. split; [exact E1|]. intros k Hk.
    destruct (steps_spec sh k st1 I') as (st2 & E2 & J2 & G1 & G2 & G3 & G4).
    exists st2. split; [exact E2|]. apply (get_exact sh); auto.
    + unfold bias_ok in *. rewrite G2, F1. exact B.
    + rewrite G4, F2, F3. reflexivity.
  - destruct (set_pos sh st v n I Hsh T ltac:(lia)) as (st1 & E1 & I' & F1 & F2 & F3 & F4 & F5 & F6).
    exists st1. split; [exact E1|]. intros k Hk.
    destruct (steps_spec sh k st1 I') as (st2 & E2 & J2 & G1 & G2 & G3 & G4).
    exists st2. split; [exact E2|]. apply (get_exact sh); auto.
    + unfold bias_ok in *. rewrite G2. apply F6, G.
    + rewrite G4, F1. replace (n =? 0) with false by lia. replace (Z.of_nat k <? n) with false by lia. exact F4.
Qed.

(** Reported values of all intermediate steps. *)
Lemma slide_path sh st v n : slide_inv sh st -> 0 <= sh <= 28 -> target_ok sh v ->
  1 <= n <= 65536 -> slide_good st v n ->
  exists st1, BKSlideStateSetValueAndSteps st v n = Ok st1 /\
  exists r : nat -> Z,
    (forall k, exists st2, slide_steps k st1 = Ok st2 /\ BKSlideStateGetValue st2 = Ok (r k)) /\
    (sl_value st <= v * P sh -> forall k, r k <= r (S k) /\ sl_value st / P sh <= r k <= v) /\
    (v * P sh < sl_value st -> forall k, r (S k) <= r k /\ v <= r k <= sl_value st / P sh + 1) /\
    (forall u, sl_value st = u * P sh -> r 0%nat = u).
Proof.
  intros I Hsh T Hn G.
  destruct (set_pos sh st v n I Hsh T Hn) as (st1 & E1 & I' & F1 & F2 & F3 & F4 & F5 & F6).
  exists st1. split; [exact E1|].
  assert (B := F6 G). unfold bias_ok in B.
  assert (HP := P_pos sh ltac:(lia)).
  assert (Hb : 0 <= sl_roundBias st1) by (destruct I'; lia).
  set (x := fun k : nat => if Z.of_nat k <? n then sl_value st + Z.of_nat k * sl_stepDelta st1 else v * P sh).
  exists (fun k => (x k + sl_roundBias st1) / P sh).
  assert (XE : forall k, exists st2, slide_steps k st1 = Ok st2 /\ slide_inv sh st2 /\
     sl_value st2 = x k /\ sl_roundBias st2 = sl_roundBias st1).
  { intros k. destruct (steps_spec sh k st1 I') as (st2 & E2 & J2 & G1 & G2 & G3 & G4).
    exists st2. split; [exact E2|]. split; [exact J2|]. split; [|exact G2].
    rewrite G4, F1, F3, F4. replace (n =? 0) with false by lia. reflexivity. }
  split; [|split; [|split]].
  - intros k. destruct (XE k) as (st2 & X1 & X2 & X3 & X4). exists st2. split; [exact X1|].
    rewrite (get_value sh st2 X2 Hsh), X3, X4. reflexivity.
  - intros Up.
    destruct (quot_dir (v * P sh - sl_value st) n ltac:(lia)) as [Q1 _].
    specialize (Q1 ltac:(lia)). rewrite <- F5 in Q1.
    assert (X : forall k, x k <= x (S k) /\ sl_value st <= x k <= v * P sh).
    { intros k. unfold x. destruct (Z.of_nat k <? n) eqn:K1; destruct (Z.of_nat (S k) <? n) eqn:K2; try lia; nia. }
    intros k. destruct (X k) as (X1 & X2 & X3). split; [apply Z.div_le_mono; lia|]. split.
    + apply Z.div_le_mono; lia.
    + apply Z.lt_succ_r. apply Z.div_lt_upper_bound; lia.
  - intros Down.
    destruct (quot_dir (v * P sh - sl_value st) n ltac:(lia)) as [_ Q1].
    specialize (Q1 ltac:(lia)). rewrite <- F5 in Q1.
    assert (X : forall k, x (S k) <= x k /\ v * P sh <= x k <= sl_value st).
    { intros k. unfold x. destruct (Z.of_nat k <? n) eqn:K1; destruct (Z.of_nat (S k) <? n) eqn:K2; try lia; nia. }
    intros k. destruct (X k) as (X1 & X2 & X3). split; [apply Z.div_le_mono; lia|]. split.
    + apply Z.div_le_lower_bound; lia.
    + replace (sl_value st / P sh + 1) with ((sl_value st + 1 * P sh) / P sh) by (apply Z.div_add; lia).
      apply Z.div_le_mono; lia.
  - intros u Hu. unfold x. replace (Z.of_nat 0 <? n) with true by lia.
    replace (sl_value st + Z.of_nat 0 * sl_stepDelta st1 + sl_roundBias st1) with (sl_roundBias st1 + u * P sh) by lia.
    rewrite Z.div_add by lia. rewrite Z.div_small by lia. lia.
Qed.

(** ** Histories *)
Lemma max_value_loop_range fuel : forall m s, 0 <= s <= 30 -> 0 <= max_value_loop fuel m s <= 30.
Proof.
  induction fuel as [|fuel IH]; intros m s H; cbn [max_value_loop]; [lia|].
  destruct ((2 ^ s <? m) && (s <? 30)) eqn:E; [apply IH; lia|lia].
Qed.

Lemma max_shift_range m : 0 <= BKGetMaxValueShift m <= 30.
Proof.
  unfold BKGetMaxValueShift. destruct (m =? 0); [lia|].
  assert (K := max_value_loop_range 30 m 0 ltac:(lia)). lia.
Qed.

Lemma init_slide_inv m : slide_inv (BKGetMaxValueShift m) (BKSlideStateInit m).
Proof.
  constructor; cbn [BKSlideStateInit sl_valueShift sl_value sl_endValue sl_roundBias sl_steps sl_step sl_stepDelta]; try lia.
  reflexivity.
Qed.

(** Arguments permitted by the track: targets in range and at most 65536 steps. *)
Definition op_ok (sh : Z) (o : slide_op) : Prop :=
  match o with
  | SSet v n => target_ok sh v /\ n <= 65536
  | SValue v => target_ok sh v
  | SSteps n => n <= 65536
  | _ => True
  end.

Lemma slide_set_total sh st v n : slide_inv sh st -> 0 <= sh <= 28 -> target_ok sh v -> n <= 65536 ->
  exists st', BKSlideStateSetValueAndSteps st v n = Ok st' /\ slide_inv sh st' /\
   (bias_ok sh st -> slide_good st v n -> bias_ok sh st').
Proof.
  intros I Hsh T Hn. destruct (Z.le_gt_cases n 0) as [N|N].
  - destruct (set_zero sh st v n I Hsh T N) as (st1 & E1 & I' & F1 & _).
    exists st1. split; [exact E1|]. split; [exact I'|]. intros B _. unfold bias_ok in *. rewrite F1. exact B.
  - destruct (set_pos sh st v n I Hsh T ltac:(lia)) as (st1 & E1 & I' & _ & _ & _ & _ & _ & F6).
    exists st1. split; [exact E1|]. split; [exact I'|]. intros _. exact F6.
Qed.

Definition op_good (st : slide) (o : slide_op) : Prop :=
  match o with
  | SSet v n => slide_good st v n
  | SValue v => slide_good st v (sl_steps st)
  | SSteps n => slide_good st (sl_endValue st / P (sl_valueShift st)) n
  | _ => True
  end.

Lemma slide_step_total sh st o : slide_inv sh st -> 0 <= sh <= 28 -> op_ok sh o ->
  exists st', slide_step st o = Ok st' /\ slide_inv sh st' /\
  (bias_ok sh st -> op_good st o -> bias_ok sh st').
Proof.
  intros I Hsh O. destruct o; cbn [slide_step op_ok op_good] in *.
  - apply slide_set_total; tauto.
  - unfold BKSlideStateSetValue. apply slide_set_total; auto. destruct I; lia.
  - unfold BKSlideStateSetSteps. rewrite (si_sh _ _ I), shr_P by lia. apply slide_set_total; auto.
    unfold target_ok. rewrite <- (si_mult _ _ I). apply (si_end _ _ I).
  - eexists. split; [reflexivity|]. split; [|intros B _; exact B].
    destruct I as [I1 I2 I3 I4 I5 I6 I7 I8].
    constructor; cbn [BKSlideStateHalt sl_valueShift sl_value sl_endValue sl_roundBias sl_steps sl_step sl_stepDelta]; try assumption; try lia.
    destruct setEnd; lia.
  - destruct (step_inv sh st I) as (st' & E & I' & _ & F & _). exists st'. split; [exact E|]. split; [exact I'|].
    intros B _. unfold bias_ok in *. rewrite F. exact B.
Qed.

Lemma slide_run_total sh ops : forall st, slide_inv sh st -> 0 <= sh <= 28 -> Forall (op_ok sh) ops ->
  exists st', slide_run st ops = Ok st' /\ slide_inv sh st'.
Proof.
  induction ops as [|o ops IH]; intros st I Hsh F; cbn [slide_run].
  - exists st. auto.
  - inversion F; subst. destruct (slide_step_total sh st o I Hsh ltac:(assumption)) as (st' & E & I' & _).
    rewrite E. cbn [bind]. apply IH; assumption.
Qed.

Fixpoint run_good (st : slide) (ops : list slide_op) : Prop :=
  match ops with
  | [] => True
  | o :: ops => op_good st o /\ match slide_step st o with Ok st' => run_good st' ops | Err _ => True end
  end.

Lemma slide_run_good sh ops : forall st st', slide_inv sh st -> bias_ok sh st -> 0 <= sh <= 28 ->
  Forall (op_ok sh) ops -> run_good st ops -> slide_run st ops = Ok st' -> slide_inv sh st' /\ bias_ok sh st'.
Proof.
  induction ops as [|o ops IH]; intros st st' I B Hsh F G E; cbn [slide_run run_good] in *.
  - inversion E; subst. auto.
  - inversion F; subst. destruct (slide_step_total sh st o I Hsh ltac:(assumption)) as (st1 & E1 & I1 & B1).
    rewrite E1 in E, G. cbn [bind] in E. destruct G as [G1 G2].
    apply (IH st1); auto.
Qed.
