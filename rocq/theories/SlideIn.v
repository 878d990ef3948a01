(** Slides and intervals that stay in a range. *)
From Verif Require Import CIntFacts InterpModel InterpProofs IntervalProofs.
Ltac Zify.zify_post_hook ::= idtac.

Definition slide_in (sh lo hi : Z) (st : slide) : Prop :=
  slide_inv sh st /\ lo * P sh <= sl_value st <= hi * P sh /\ lo * P sh <= sl_endValue st <= hi * P sh.

Section In.
Variables sh lo hi : Z.
Hypothesis Hsh : 0 <= sh <= 28.
Hypothesis Hlo : target_ok sh lo.
Hypothesis Hhi : target_ok sh hi.

Lemma in_target v : lo <= v <= hi -> target_ok sh v.
Proof. unfold target_ok in *. pose proof (P_pos sh ltac:(lia)). nia. Qed.

Lemma in_set st v n : slide_in sh lo hi st -> lo <= v <= hi -> n <= 65536 ->
  exists st', BKSlideStateSetValueAndSteps st v n = Ok st' /\ slide_in sh lo hi st' /\
    sl_endValue st' = v * P sh /\ sl_steps st' = Z.max 0 n /\
    (n <= 0 -> sl_value st' = v * P sh /\ sl_step st' = 0 /\ sl_roundBias st' = sl_roundBias st) /\
    (1 <= n -> sl_value st' = sl_value st /\ sl_step st' = n).
Proof.
  intros (I & B1 & B2) HV HN. pose proof (P_pos sh ltac:(lia)) as HP.
  assert (BV : lo * P sh <= v * P sh <= hi * P sh) by nia.
  destruct (Z.le_gt_cases n 0) as [Z0|Z0].
  - destruct (set_zero sh st v n I Hsh (in_target v HV) Z0) as (st' & E & I' & E1 & E2 & E3 & E4 & E5 & E6).
    exists st'. split; [exact E|]. rewrite E3, E4, E6, E1, E2. split; [split; [exact I'|rewrite E3, E4; auto]|]. split; [reflexivity|]. split; [lia|]. split; [auto|lia].
  - destruct (set_pos sh st v n I Hsh (in_target v HV) ltac:(lia)) as (st' & E & I' & E1 & E2 & E3 & E4 & E5 & E6).
    exists st'. split; [exact E|]. rewrite E3, E4, E2, E1. split; [split; [exact I'|rewrite E3, E4; auto]|]. split; [reflexivity|]. split; [lia|]. split; [lia|auto].
Qed.

Lemma in_value st v : slide_in sh lo hi st -> lo <= v <= hi ->
  exists st', BKSlideStateSetValue st v = Ok st' /\ slide_in sh lo hi st' /\
    sl_endValue st' = v * P sh /\ sl_steps st' = sl_steps st /\ (sl_steps st = 0 -> sl_value st' = v * P sh /\ sl_roundBias st' = sl_roundBias st).
Proof.
  intros H HV. pose proof H as (I & _). pose proof (si_steps _ _ I) as HS. unfold BKSlideStateSetValue.
  destruct (in_set st v (sl_steps st) H HV ltac:(lia)) as (st' & E & I' & E1 & E2 & E3 & E4).
  exists st'. split; [exact E|]. split; [exact I'|]. split; [exact E1|]. split; [lia|]. intros Z0. destruct (E3 ltac:(lia)) as (? & ? & ?). auto.
Qed.

Lemma in_steps st n : slide_in sh lo hi st -> n <= 65536 ->
  exists st', BKSlideStateSetSteps st n = Ok st' /\ slide_in sh lo hi st' /\
    sl_endValue st' = sl_endValue st /\ sl_steps st' = Z.max 0 n.
Proof.
  intros H HN. pose proof H as (I & B1 & B2). pose proof (P_pos sh ltac:(lia)) as HP. unfold BKSlideStateSetSteps. rewrite (si_sh _ _ I), shr_P by lia.
  pose proof (si_mult _ _ I) as M. set (v := sl_endValue st / P sh) in *.
  assert (HV : lo <= v <= hi) by (rewrite M in B2; nia).
  destruct (in_set st v n H HV HN) as (st' & E & I' & E1 & E2 & _). exists st'. split; [exact E|]. split; [exact I'|]. split; [congruence|exact E2].
Qed.

Lemma in_halt st b : slide_in sh lo hi st -> slide_in sh lo hi (BKSlideStateHalt st b).
Proof.
  intros (I & B1 & B2). destruct I. split; [|destruct b; cbn [BKSlideStateHalt sl_value sl_endValue]; auto].
  constructor; cbn [BKSlideStateHalt sl_value sl_endValue sl_valueShift sl_roundBias sl_steps sl_step sl_stepDelta]; try assumption; try lia.
  destruct b; assumption.
Qed.

Lemma in_step st : slide_in sh lo hi st -> exists st', BKSlideStateStep st = Ok st' /\ slide_in sh lo hi st' /\
  sl_endValue st' = sl_endValue st /\ sl_steps st' = sl_steps st.
Proof.
  intros (I & B1 & B2). destruct (step_inv sh st I) as (st' & E & I' & E1 & E2 & E3 & E4 & E5 & E6).
  exists st'. split; [exact E|]. split; [|auto]. split; [exact I'|]. rewrite E1. split; [|exact B2].
  rewrite E6. pose proof (si_step _ _ I) as HS. pose proof (si_dir _ _ I) as D.
  destruct (Z.eqb_spec (sl_step st) 0) as [Z0|Z0]; [exact B1|]. destruct (Z.eqb_spec (sl_step st) 1) as [Z1|Z1]; [exact B2|].
  specialize (D ltac:(lia)). clear - B1 B2 D HS Z0 Z1. destruct D as [(D1 & D2)|(D1 & D2)]; nia.
Qed.

Lemma in_get st : slide_in sh lo hi st -> exists v, BKSlideStateGetValue st = Ok v /\ lo <= v /\ v * P sh <= hi * P sh + 268435456.
Proof.
  intros (I & B1 & B2). pose proof (P_pos sh ltac:(lia)) as HP. rewrite (get_value sh st I Hsh). eexists. split; [reflexivity|].
  pose proof (si_bias _ _ I) as BB. set (x := sl_value st + sl_roundBias st) in *.
  assert (HX : lo * P sh <= x <= hi * P sh + 268435456) by lia.
  split; [apply Z.div_le_lower_bound; lia|]. pose proof (Z.mul_div_le x (P sh) HP). lia.
Qed.

End In.

Lemma slide_init m lo hi : lo <= 0 <= hi -> slide_in (BKGetMaxValueShift m) lo hi (BKSlideStateInit m).
Proof.
  intros H. split; [apply init_slide_inv|]. cbn [BKSlideStateInit sl_value sl_endValue].
  pose proof (P_pos (BKGetMaxValueShift m) ltac:(pose proof (max_shift_range m); lia)). nia.
Qed.

(** An interval reports at most its depth and the rounding. *)
Lemma interval_get_bound sh D st : interval_inv sh st -> 0 <= sh <= 28 -> Z.abs (iv_delta st) <= D * P sh ->
  exists v, BKIntervalStateGetValue st = Ok v /\ - D <= v /\ v * P sh <= D * P sh + 268435456.
Proof.
  intros I Hsh HD. pose proof (P_pos sh ltac:(lia)) as HP. rewrite (interval_get sh st I Hsh). eexists. split; [reflexivity|].
  pose proof (interval_value_bound sh st I) as B. pose proof (ii_bias _ _ I) as BB. set (x := iv_value st + iv_roundBias st) in *.
  assert (HX : - D * P sh <= x <= D * P sh + 268435456) by lia.
  split; [apply Z.div_le_lower_bound; lia|]. pose proof (Z.mul_div_le x (P sh) HP). lia.
Qed.
