(** Properties of slides and intervals: C11, C12, C13, C68. *)
From Verif Require Import CIntFacts InterpModel InterpProofs IntervalProofs.
Ltac Zify.zify_post_hook ::= idtac.

(** A slide as the API user can obtain it: initialised for a maximum value, then
    any history of permitted operations, all of them harmless for rounding
    ([run_good]: upwards, or downwards with [256*steps < distance * 2^shift]). *)
Definition reachable (m : Z) (st : slide) : Prop :=
  exists ops, Forall (op_ok (BKGetMaxValueShift m)) ops /\ run_good (BKSlideStateInit m) ops /\
              slide_run (BKSlideStateInit m) ops = Ok st.

Lemma reachable_inv m st : BKGetMaxValueShift m <= 28 -> reachable m st ->
  slide_inv (BKGetMaxValueShift m) st /\ bias_ok (BKGetMaxValueShift m) st.
Proof.
  intros Hm (ops & F & G & E). assert (K := max_shift_range m).
  apply (slide_run_good _ ops (BKSlideStateInit m)); auto; [apply init_slide_inv| |lia].
  unfold bias_ok. cbn [BKSlideStateInit sl_roundBias]. apply P_pos. lia.
Qed.

(** ** C11 *)

(** Missing from the full claim: downward slides with more than
    [distance * 2^shift / 256] steps, for which it is false (below). *)
Theorem C11_slide_ends_on_target_partial :
  forall m st v n, BKGetMaxValueShift m <= 28 -> reachable m st ->
  -1073741824 < v * 2 ^ BKGetMaxValueShift m <= 1073741824 -> n <= 65536 -> slide_good st v n ->
  exists st1, BKSlideStateSetValueAndSteps st v n = Ok st1 /\
    forall k : nat, n <= Z.of_nat k ->
    exists st2, slide_steps k st1 = Ok st2 /\ BKSlideStateGetValue st2 = Ok v.
Proof.
  intros m st v n Hm R Hv Hn G. destruct (reachable_inv m st Hm R) as (I & B).
  assert (K := max_shift_range m).
  exact (slide_target (BKGetMaxValueShift m) st v n I B ltac:(lia) Hv Hn G).
Qed.

(** Upward slides need no further condition. *)
Theorem C11_upward_slide_ends_on_target :
  forall m st v n, BKGetMaxValueShift m <= 28 -> reachable m st ->
  -1073741824 < v * 2 ^ BKGetMaxValueShift m <= 1073741824 -> n <= 65536 ->
  sl_value st <= v * 2 ^ BKGetMaxValueShift m ->
  exists st1, BKSlideStateSetValueAndSteps st v n = Ok st1 /\
    forall k : nat, n <= Z.of_nat k ->
    exists st2, slide_steps k st1 = Ok st2 /\ BKSlideStateGetValue st2 = Ok v.
Proof.
  intros m st v n Hm R Hv Hn U. apply (C11_slide_ends_on_target_partial m); auto.
  right; left. destruct (reachable_inv m st Hm R) as (I & _). rewrite (si_sh _ _ I). exact U.
Qed.

Example C11_example : exists st, reachable 32767 st /\ sl_value st = 1000 * 32768 /\
  slide_good st 32767 65536 /\ slide_good st 0 65536.
Proof.
  eexists. split; [|split; [|split]].
  - exists [SSet 1000 0]. split; [|split; [|reflexivity]].
    + constructor; [|constructor]. vm_compute. repeat split; congruence.
    + split; [left; lia|exact I].
  - reflexivity.
  - right; left. vm_compute. congruence.
  - right; right. vm_compute. reflexivity.
Qed.

(** Final value reported by a slide set to [u] at once and then sliding to [v] in [n] steps. *)
Definition slide_outcome (m u v n : Z) : res Z :=
  let* st := BKSlideStateSetValueAndSteps (BKSlideStateInit m) u 0 in
  let* st := BKSlideStateSetValueAndSteps st v n in
  let* st := slide_steps (Z.to_nat n) st in
  BKSlideStateGetValue st.

(** A volume slide from 1000 to 999 in 30000 steps ends reporting 1116. *)
Theorem C11_slide_ends_on_target_refuted :
  exists u v n, 0 <= v <= 32767 /\ 0 <= u <= 32767 /\ 1 <= n <= 65536 /\
  exists w, slide_outcome 32767 u v n = Ok w /\ w <> v.
Proof.
  exists 1000, 999, 30000. split; [lia|]. split; [lia|]. split; [lia|].
  exists 1116. split; [vm_compute; reflexivity|lia].
Qed.

(** ** C12 *)

(** [r k] is the value reported after [k] steps.  Missing: the same downward
    slides as in C11. *)
Theorem C12_slide_monotone_partial :
  forall m st u v n, BKGetMaxValueShift m <= 28 -> reachable m st ->
  sl_value st = u * 2 ^ BKGetMaxValueShift m ->
  -1073741824 < v * 2 ^ BKGetMaxValueShift m <= 1073741824 -> 1 <= n <= 65536 -> slide_good st v n ->
  exists st1, BKSlideStateSetValueAndSteps st v n = Ok st1 /\
  exists r : nat -> Z,
    (forall k, exists st2, slide_steps k st1 = Ok st2 /\ BKSlideStateGetValue st2 = Ok (r k)) /\
    r 0%nat = u /\
    (u <= v -> forall k, r k <= r (S k) /\ u <= r k <= v) /\
    (v <= u -> forall k, r (S k) <= r k /\ v <= r k <= u).
Proof.
  intros m st u v n Hm R Hu Hv Hn G. destruct (reachable_inv m st Hm R) as (I & _).
  assert (K := max_shift_range m). set (sh := BKGetMaxValueShift m) in *. fold (P sh) in *.
  assert (HP := P_pos sh ltac:(lia)).
  destruct (slide_path sh st v n I ltac:(lia) Hv Hn G) as (st1 & E & r & R1 & R2 & R3 & R4).
  exists st1. split; [exact E|]. exists r. split; [exact R1|]. assert (R0 := R4 u Hu).
  rewrite Hu, Z.div_mul in R2, R3 by lia.
  split; [exact R0|]. split.
  - intros L. apply R2. nia.
  - intros L. destruct (Z.eq_dec u v) as [->|NE].
    + specialize (R2 ltac:(lia)). intros k. destruct (R2 k). destruct (R2 (S k)). lia.
    + specialize (R3 ltac:(nia)). intros k. destruct (R3 k) as (A & B & _). split; [exact A|]. split; [exact B|].
      clear - R0 R3. induction k as [|k IH]; [lia|]. destruct (R3 k). lia.
Qed.

(** Starting in the middle of another slide, the value stays between the start
    value and the target, with one unit of tolerance for rounding at the start. *)
Theorem C12_slide_from_midway_partial :
  forall m st v n, BKGetMaxValueShift m <= 28 -> reachable m st ->
  -1073741824 < v * 2 ^ BKGetMaxValueShift m <= 1073741824 -> 1 <= n <= 65536 -> slide_good st v n ->
  exists st1, BKSlideStateSetValueAndSteps st v n = Ok st1 /\
  exists r : nat -> Z,
    (forall k, exists st2, slide_steps k st1 = Ok st2 /\ BKSlideStateGetValue st2 = Ok (r k)) /\
    (sl_value st <= v * 2 ^ BKGetMaxValueShift m ->
       forall k, r k <= r (S k) /\ sl_value st / 2 ^ BKGetMaxValueShift m <= r k <= v) /\
    (v * 2 ^ BKGetMaxValueShift m < sl_value st ->
       forall k, r (S k) <= r k /\ v <= r k <= sl_value st / 2 ^ BKGetMaxValueShift m + 1).
Proof.
  intros m st v n Hm R Hv Hn G. destruct (reachable_inv m st Hm R) as (I & _).
  assert (K := max_shift_range m).
  destruct (slide_path (BKGetMaxValueShift m) st v n I ltac:(lia) Hv Hn G) as (st1 & E & r & R1 & R2 & R3 & R4).
  exists st1. split; [exact E|]. exists r. auto.
Qed.

Example C12_example : exists st, reachable 32767 st /\ sl_value st = 1000 * 2 ^ 15 /\
  BKGetMaxValueShift 32767 = 15 /\ slide_good st 20000 24 /\ slide_good st 10 24.
Proof.
  eexists. split; [|split; [|split; [|split]]].
  - exists [SSet 1000 0]. split; [|split; [|reflexivity]].
    + constructor; [|constructor]. vm_compute. repeat split; congruence.
    + split; [left; lia|exact I].
  - reflexivity.
  - reflexivity.
  - right; left. vm_compute. congruence.
  - right; right. vm_compute. reflexivity.
Qed.

(** The volume slide of C11 immediately jumps above its start value. *)
Theorem C12_slide_monotone_refuted :
  exists u v n, 0 <= v < u /\ u <= 32767 /\ 1 <= n <= 65536 /\
  exists w, (let* st := BKSlideStateSetValueAndSteps (BKSlideStateInit 32767) u 0 in
             let* st := BKSlideStateSetValueAndSteps st v n in BKSlideStateGetValue st) = Ok w /\ u < w.
Proof.
  exists 1000, 999, 30000. split; [lia|]. split; [lia|]. split; [lia|].
  exists 1117. split; [vm_compute; reflexivity|lia].
Qed.

(** ** C13 *)

(** Any history of depth changes and steps: the reported value stays within the depth. *)
Theorem C13_interval_bounded_partial :
  forall m ops d n k, let sh := BKClamp (BKGetMaxValueShift m - 1) 0 30 in
  sh <= 28 -> Forall (iop_ok sh) ops -> Forall (iop_good sh) ops ->
  -1073741824 < d * 2 ^ sh < 1073741824 -> 1 <= n <= 131072 -> (0 <= d \/ 256 * n < - d * 2 ^ sh) ->
  exists st0 st1 st2 r, interval_run (BKIntervalStateInit m) ops = Ok st0 /\
    BKIntervalStateSetDeltaAndSteps st0 d n = Ok st1 /\ interval_steps k st1 = Ok st2 /\
    BKIntervalStateGetValue st2 = Ok r /\ - Z.abs d <= r <= Z.abs d.
Proof.
  intros m ops d n k sh Hm F G Hd Hn GD. destruct (interval_init_inv m) as (K & I0). fold sh in K, I0.
  assert (HP := P_pos sh ltac:(lia)).
  destruct (interval_run_total sh ops _ I0 ltac:(lia) F) as (st0 & E0 & I1 & B1).
  specialize (B1 HP G).
  destruct (interval_set_inv sh st0 d n I1 ltac:(lia) Hd ltac:(lia)) as (st1 & E1 & I2 & F1 & F2 & B2 & _).
  specialize (B2 B1 ltac:(right; exact GD)). specialize (F2 ltac:(lia)).
  destruct (interval_steps_inv sh k st1 I2) as (st2 & E2 & I3 & F3 & F4 & F5).
  destruct (interval_report_bound sh st2 d I3 ltac:(lia) ltac:(lia) ltac:(congruence)) as (r & E3 & R).
  exists st0, st1, st2, r. auto.
Qed.

(** Started from rest the oscillation is a periodic triangle through 0, d, 0, -d, 0. *)
Theorem C13_interval_periodic_partial :
  forall m d n, let sh := BKClamp (BKGetMaxValueShift m - 1) 0 30 in
  sh <= 28 -> -1073741824 < d * 2 ^ sh < 1073741824 -> 1 <= n <= 131072 ->
  (0 <= d \/ 256 * n < - d * 2 ^ sh) ->
  exists st1, BKIntervalStateSetDeltaAndSteps (BKIntervalStateInit m) d n = Ok st1 /\
  exists r : nat -> Z,
    (forall k, exists st2, interval_steps k st1 = Ok st2 /\ BKIntervalStateGetValue st2 = Ok (r k)) /\
    (forall k, - Z.abs d <= r k <= Z.abs d) /\
    (forall k, r (k + 4 * Z.to_nat n)%nat = r k) /\
    r 0%nat = 0 /\ r (Z.to_nat n) = d /\ r (2 * Z.to_nat n)%nat = 0 /\ r (3 * Z.to_nat n)%nat = - d.
Proof.
  intros m d n sh Hm Hd Hn GD. destruct (interval_init_inv m) as (K & I0). fold sh in K, I0.
  assert (HP := P_pos sh ltac:(lia)).
  destruct (interval_fresh sh (BKIntervalStateInit m) d n I0 ltac:(lia) eq_refl Hd Hn) as (b & E & I1 & Hb0 & Hb).
  specialize (Hb HP ltac:(right; exact GD)).
  exists (wave_at (d * P sh) n b sh 0). split; [exact E|].
  exists (fun k => (wave_value (d * P sh) n (Z.of_nat k mod (4 * n)) + b) / P sh).
  assert (ST := fun k => wave_steps (d * P sh) n b sh k 0 Hn ltac:(lia) Hd).
  assert (IN : forall k, exists st2, interval_steps k (wave_at (d * P sh) n b sh 0) = Ok st2 /\ interval_inv sh st2 /\
      st2 = wave_at (d * P sh) n b sh (Z.of_nat k mod (4 * n))).
  { intros k. destruct (interval_steps_inv sh k _ I1) as (st2 & E2 & I2 & _). exists st2. split; [exact E2|].
    split; [exact I2|]. rewrite ST, Z.add_0_l in E2. congruence. }
  assert (Q : forall p : nat, 0 <= Z.of_nat p <= 3 ->
      (wave_value (d * P sh) n (Z.of_nat (p * Z.to_nat n) mod (4 * n)) + b) / P sh =
      match Z.of_nat p with 0 => 0 | 1 => d | 2 => 0 | _ => - d end).
  { intros p Hp. replace (Z.of_nat (p * Z.to_nat n)) with (n * Z.of_nat p + 0) by (rewrite Nat2Z.inj_mul, Z2Nat.id by lia; ring).
    rewrite Z.mod_small by nia. destruct (div_mod_at n (Z.of_nat p) 0 ltac:(lia) ltac:(lia)) as (X1 & X2).
    unfold wave_value. rewrite X1, X2, Z.mul_0_r.
    assert (C : Z.of_nat p = 0 \/ Z.of_nat p = 1 \/ Z.of_nat p = 2 \/ Z.of_nat p = 3) by lia.
    destruct C as [-> | [-> | [-> | ->]]]; cbv iota;
      match goal with |- (?x + b) / P sh = ?y => replace (x + b) with (b + y * P sh) by ring end;
      rewrite Z.div_add by lia; rewrite Z.div_small by lia; lia. }
  split; [|split; [|split; [|split; [|split; [|split]]]]].
  - intros k. destruct (IN k) as (st2 & E2 & I2 & ->). eexists. split; [exact E2|].
    rewrite (interval_get sh _ I2 ltac:(lia)). reflexivity.
  - intros k. destruct (IN k) as (st2 & E2 & I2 & ->).
    destruct (interval_report_bound sh _ d I2 ltac:(lia) ltac:(cbn [wave_at iv_roundBias]; lia) eq_refl) as (r & E3 & R).
    rewrite (interval_get sh _ I2 ltac:(lia)) in E3. cbn [wave_at iv_value iv_roundBias] in E3. inversion E3. subst r. exact R.
  - intros k. do 3 f_equal. replace (Z.of_nat (k + 4 * Z.to_nat n)) with (Z.of_nat k + 1 * (4 * n)) by lia.
    apply Z.mod_add. lia.
  - exact (Q 0%nat ltac:(lia)).
  - assert (W := Q 1%nat ltac:(lia)). rewrite Nat.mul_1_l in W. exact W.
  - exact (Q 2%nat ltac:(lia)).
  - exact (Q 3%nat ltac:(lia)).
Qed.

Example C13_example : let sh := BKClamp (BKGetMaxValueShift 32767 - 1) 0 30 in
  sh = 14 /\ Forall (iop_ok sh) [ISet 2000 24; IStep; ISet 3000 12] /\ Forall (iop_good sh) [ISet 2000 24; IStep; ISet 3000 12].
Proof.
  split; [reflexivity|]. split.
  - repeat constructor; vm_compute; congruence.
  - constructor; [right; left; lia|]. constructor; [exact I|]. constructor; [right; left; lia|constructor].
Qed.

(** A vibrato of depth -2 and 2 steps starts by reporting 128. *)
Theorem C13_interval_bounded_refuted :
  exists d n w, 1 <= n <= 131072 /\
  (let* st := BKIntervalStateSetDeltaAndSteps (BKIntervalStateInit 0) d n in BKIntervalStateGetValue st) = Ok w /\
  Z.abs d < w.
Proof. exists (-2), 2, 128. split; [lia|]. split; [vm_compute; reflexivity|lia]. Qed.

(** ** C68 *)

(** Missing: step counts above 65536, see the refutation. *)
Theorem C68_slide_no_overflow_partial :
  forall m ops, BKGetMaxValueShift m <= 28 -> Forall (op_ok (BKGetMaxValueShift m)) ops ->
  exists st v, slide_run (BKSlideStateInit m) ops = Ok st /\ BKSlideStateGetValue st = Ok v.
Proof.
  intros m ops Hm F. assert (K := max_shift_range m).
  destruct (slide_run_total _ ops _ (init_slide_inv m) ltac:(lia) F) as (st & E & I).
  exists st. eexists. split; [exact E|]. apply (get_value _ _ I). lia.
Qed.

Theorem C68_interval_no_overflow_partial :
  forall m ops, let sh := BKClamp (BKGetMaxValueShift m - 1) 0 30 in sh <= 28 -> Forall (iop_ok sh) ops ->
  exists st v, interval_run (BKIntervalStateInit m) ops = Ok st /\ BKIntervalStateGetValue st = Ok v.
Proof.
  intros m ops sh Hm F. destruct (interval_init_inv m) as (K & I0).
  destruct (interval_run_total _ ops _ I0 ltac:(lia) F) as (st & E & I & _).
  exists st. eexists. split; [exact E|]. apply (interval_get _ _ I). fold sh. lia.
Qed.

Example C68_example : Forall (op_ok (BKGetMaxValueShift 32767)) [SSet 32767 65536; SStep; SValue (-32767); SHalt true; SSteps 7].
Proof. repeat constructor; vm_compute; congruence. Qed.

(** The largest step count the setter accepts overflows [steps << 8]. *)
Theorem C68_slide_no_overflow_refuted :
  BKSlideStateSetValueAndSteps (BKSlideStateInit 32767) 1 BK_STATE_MAX_STEPS = Err EOverflow.
Proof. vm_compute. reflexivity. Qed.

Print Assumptions C11_slide_ends_on_target_partial.
Print Assumptions C11_upward_slide_ends_on_target.
Print Assumptions C11_slide_ends_on_target_refuted.
Print Assumptions C12_slide_monotone_partial.
Print Assumptions C12_slide_from_midway_partial.
Print Assumptions C12_slide_monotone_refuted.
Print Assumptions C13_interval_bounded_partial.
Print Assumptions C13_interval_periodic_partial.
Print Assumptions C13_interval_bounded_refuted.
Print Assumptions C68_slide_no_overflow_partial.
Print Assumptions C68_interval_no_overflow_partial.
Print Assumptions C68_slide_no_overflow_refuted.
