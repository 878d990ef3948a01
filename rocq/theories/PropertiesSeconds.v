(** Properties of times given in seconds: C96, C97. *)
From Verif Require Import CInt CIntFacts TimeModel SecondsModel.
Open Scope Z_scope.
Ltac Zify.zify_post_hook ::= idtac.

Definition rate_ok (rate : Z) : Prop := 16000 <= rate <= 96000.

(** * Rounding *)

(** The result differs from the exact value by at most one half of [2 ^ k], which is at most
    [p / 2 ^ 53]. *)
Lemma round53_spec p e : 0 <= p -> exists q k, round53 p e = (q, e + k) /\ 0 <= k /\ 0 <= q /\ 2 * Z.abs (q * 2 ^ k - p) <= 2 ^ k /\ (k = 0 -> q = p) /\ (0 < k -> 2 ^ k * 2 ^ 52 <= p) /\ p < 2 ^ k * 2 ^ 53.
Proof.
  intros P. unfold round53. rewrite (Z.abs_eq p) by exact P. set (k := Z.max 0 (Z.log2 p - 52)). eexists. exists k. split; [reflexivity|].
  assert (K : 0 < 2 ^ k) by (apply Z.pow_pos_nonneg; lia). pose proof (Z.div_mod p (2 ^ k) ltac:(lia)) as D. pose proof (Z.mod_pos_bound p (2 ^ k) K) as M.
  assert (Q : 0 <= p / 2 ^ k) by (apply Z.div_pos; lia). split; [lia|].
  assert (UP : p < 2 ^ k * 2 ^ 53).
  { destruct (Z.eq_dec p 0) as [->|NZ]; [assert (0 < 2 ^ 53) by reflexivity; nia|]. rewrite <- Z.pow_add_r by lia. apply Z.lt_le_trans with (2 ^ Z.succ (Z.log2 p)); [apply Z.log2_spec; lia|].
    apply Z.pow_le_mono_r; lia. }
  destruct ((2 * (p mod 2 ^ k) >? 2 ^ k) || ((2 * (p mod 2 ^ k) =? 2 ^ k) && Z.odd (p / 2 ^ k))) eqn:U.
  - assert (2 ^ k <= 2 * (p mod 2 ^ k)) by lia. split; [lia|]. split; [lia|]. split; [intros K0; rewrite K0 in *; change (2 ^ 0) with 1 in *; lia|].
    split; [|exact UP]. intros KP. rewrite <- Z.pow_add_r by lia. replace (k + 52) with (Z.log2 p) by lia. apply Z.log2_spec. lia.
  - assert (2 * (p mod 2 ^ k) <= 2 ^ k) by (destruct (2 * (p mod 2 ^ k) >? 2 ^ k) eqn:G; [discriminate|lia]). split; [lia|]. split; [lia|]. split.
    + intros K0. rewrite K0 in *. change (2 ^ 0) with 1 in *. lia.
    + split; [|exact UP]. intros KP. rewrite <- Z.pow_add_r by lia. replace (k + 52) with (Z.log2 p) by lia. apply Z.log2_spec. destruct (Z.eq_dec p 0) as [->|]; [|lia]. cbn in k. lia.
Qed.

(** * C96: seconds *)

(** [seconds = m / 2 ^ n].  The result is the exact time, cut off to whole units, up to a relative
    error of 2 ^ -53. *)
Lemma accurate rate m n : rate_ok rate -> 0 <= m < 2 ^ 53 -> 0 <= n -> rate * 1048576 * m < 2 ^ 62 * 2 ^ n ->
  exists t, BKTimeFromSeconds rate (m, - n) = Ok t /\ 0 <= t /\
    2 ^ 53 * (t * 2 ^ n) <= (2 ^ 53 + 1) * (rate * 1048576 * m) /\ (2 ^ 53 - 1) * (rate * 1048576 * m) < 2 ^ 53 * ((t + 1) * 2 ^ n).
Proof.
  intros R M N B. unfold BKTimeFromSeconds, chk64. assert (in_s64 (rate * 1048576) = true) as -> by (unfold in_s64, rate_ok in *; lia). cbn [bind]. unfold dmulz.
  set (p := rate * 1048576 * m) in *. assert (P : 0 <= p) by (unfold rate_ok in R; nia).
  destruct (round53_spec p (- n) P) as (q & k & -> & K0 & Q0 & E & KZ & KP & _). assert (PN : 0 < 2 ^ n) by (apply Z.pow_pos_nonneg; lia). assert (PK : 0 < 2 ^ k) by (apply Z.pow_pos_nonneg; lia).
  (* the error relative to the exact product *)
  assert (EP : 2 ^ 53 * Z.abs (q * 2 ^ k - p) <= p).
  { destruct (Z.eq_dec k 0) as [Z0|NZ]; [rewrite (KZ Z0), Z0; change (2 ^ 0) with 1; rewrite Z.mul_1_r, Z.sub_diag; cbn; lia|].
    specialize (KP ltac:(lia)). change (2 ^ 53) with (2 * 2 ^ 52). nia. }
  assert (T : exists t, dtrunc (q, - n + k) = t /\ 0 <= t /\ t * 2 ^ n <= q * 2 ^ k < (t + 1) * 2 ^ n).
  { unfold dtrunc. destruct (0 <=? - n + k) eqn:S.
    - exists (q * 2 ^ (- n + k)). split; [reflexivity|]. assert (0 < 2 ^ (- n + k)) by (apply Z.pow_pos_nonneg; lia). split; [nia|].
      replace (2 ^ k) with (2 ^ (- n + k) * 2 ^ n) by (rewrite <- Z.pow_add_r by lia; f_equal; lia). nia.
    - rewrite Z.quot_div_nonneg by (try apply Z.pow_pos_nonneg; lia). eexists. split; [reflexivity|]. set (D := 2 ^ (- (- n + k))). assert (DP : 0 < D) by (apply Z.pow_pos_nonneg; lia).
      split; [apply Z.div_pos; lia|]. assert (DK : 2 ^ n = D * 2 ^ k) by (unfold D; rewrite <- Z.pow_add_r by lia; f_equal; lia). rewrite DK.
      pose proof (Z.div_mod q D ltac:(lia)). pose proof (Z.mod_pos_bound q D DP). nia. }
  destruct T as (t & -> & T0 & T1). exists t. assert (TB : t < 2 ^ 63). { assert (2 ^ 53 * (t * 2 ^ n) <= (2 ^ 53 + 1) * p) by lia. change (2 ^ 63) with (2 * 2 ^ 62). nia. }
  assert (in_s64 t = true) as -> by (change (2 ^ 63) with 9223372036854775808 in TB; unfold in_s64; lia). split; [reflexivity|]. split; [exact T0|]. split; lia.
Qed.

(** Every exponent: [seconds = m * 2 ^ j / 2 ^ n]. *)
Theorem C96_accurate rate m j n : rate_ok rate -> 0 <= m < 2 ^ 53 -> 0 <= j -> 0 <= n -> rate * 1048576 * (m * 2 ^ j) < 2 ^ 62 * 2 ^ n ->
  exists t, BKTimeFromSeconds rate (m, j - n) = Ok t /\ 0 <= t /\
    2 ^ 53 * (t * 2 ^ n) <= (2 ^ 53 + 1) * (rate * 1048576 * (m * 2 ^ j)) /\ (2 ^ 53 - 1) * (rate * 1048576 * (m * 2 ^ j)) < 2 ^ 53 * ((t + 1) * 2 ^ n).
Proof.
  intros R M J N B. assert (PJ : 0 < 2 ^ j) by (apply Z.pow_pos_nonneg; lia). assert (PN : 0 < 2 ^ n) by (apply Z.pow_pos_nonneg; lia).
  destruct (Z_le_gt_dec j n) as [L|G].
  - assert (DN : 2 ^ n = 2 ^ (n - j) * 2 ^ j) by (rewrite <- Z.pow_add_r by lia; f_equal; lia). set (D := 2 ^ (n - j)) in *. rewrite DN in *.
    destruct (accurate rate m (n - j) R M ltac:(lia)) as (t & E & T0 & T1 & T2); [fold D; nia|]. fold D in T1, T2. exists t. replace (j - n) with (- (n - j)) by lia. split; [exact E|]. split; [exact T0|]. split; nia.
  - assert (DJ : 2 ^ j = 2 ^ (j - n) * 2 ^ n) by (rewrite <- Z.pow_add_r by lia; f_equal; lia). assert (PD : 0 < 2 ^ (j - n)) by (apply Z.pow_pos_nonneg; lia). set (D := 2 ^ (j - n)) in *. rewrite DJ in *.
    assert (BB : rate * 1048576 * (m * D) < 2 ^ 62) by nia. assert (MB : m * D < 2 ^ 53) by (unfold rate_ok in R; change (2 ^ 62) with (512 * 2 ^ 53) in BB; assert (0 < 2 ^ 53) by reflexivity; nia).
    assert (MP : 0 <= m * D) by nia. destruct (round53_spec (rate * 1048576 * m) (j - n) ltac:(unfold rate_ok in R; nia)) as (q & k & Q & K0 & Q0 & E & KZ & KP & _).
    unfold BKTimeFromSeconds, chk64. assert (in_s64 (rate * 1048576) = true) as -> by (unfold in_s64, rate_ok in *; lia). cbn [bind]. unfold dmulz. rewrite Q.
    assert (PK : 0 < 2 ^ k) by (apply Z.pow_pos_nonneg; lia). unfold dtrunc. replace (0 <=? j - n + k) with true by lia.
    assert (DK : 2 ^ (j - n + k) = D * 2 ^ k) by (unfold D; rewrite <- Z.pow_add_r by lia; f_equal; lia). rewrite DK. set (p := rate * 1048576 * m) in *.
    assert (P0 : 0 <= p) by (unfold p, rate_ok in *; nia).
    assert (EP : 2 ^ 53 * Z.abs (q * 2 ^ k - p) <= p).
    { destruct (Z.eq_dec k 0) as [Z0|NZ]; [rewrite (KZ Z0), Z0; change (2 ^ 0) with 1; rewrite Z.mul_1_r, Z.sub_diag; cbn; lia|]. specialize (KP ltac:(lia)). change (2 ^ 53) with (2 * 2 ^ 52). nia. }
    set (a := q * 2 ^ k) in *. replace (q * (D * 2 ^ k)) with (a * D) by (unfold a; ring). replace (rate * 1048576 * (m * D)) with (p * D) in BB by (unfold p; ring).
    assert (A0 : 0 <= a) by (unfold a; nia). assert (A1 : 2 ^ 53 * a <= (2 ^ 53 + 1) * p) by lia. assert (A2 : (2 ^ 53 - 1) * p <= 2 ^ 53 * a) by lia.
    assert (AB : a * D < 2 ^ 63) by (change (2 ^ 63) with (2 * 2 ^ 62); change (2 ^ 62) with (512 * 2 ^ 53) in *; nia).
    assert (in_s64 (a * D) = true) as -> by (change (2 ^ 63) with 9223372036854775808 in AB; unfold in_s64; nia).
    exists (a * D). split; [reflexivity|]. split; [nia|]. replace (rate * 1048576 * (m * (D * 2 ^ n))) with (p * (D * 2 ^ n)) by (unfold p; ring).
    assert (W : 0 < D * 2 ^ n) by nia. set (w := D * 2 ^ n) in *. replace (a * D * 2 ^ n) with (a * w) by (unfold w; ring). replace ((a * D + 1) * 2 ^ n) with (a * w + 2 ^ n) by (unfold w; ring).
    pose proof (Z.mul_le_mono_nonneg_r _ _ w ltac:(lia) A1). pose proof (Z.mul_le_mono_nonneg_r _ _ w ltac:(lia) A2). assert (0 < 2 ^ 53) by reflexivity. split; lia.
Qed.

(** Negative times are those with the opposite sign. *)
Lemma round53_neg p e : exists q f, round53 p e = (q, f) /\ round53 (- p) e = (- q, f).
Proof.
  unfold round53. rewrite Z.abs_opp. set (k := Z.max 0 (Z.log2 (Z.abs p) - 52)). eexists _, _. split; [reflexivity|]. f_equal. assert (K : 0 < 2 ^ k) by (apply Z.pow_pos_nonneg; lia).
  pose proof (Z.div_mod p (2 ^ k) ltac:(lia)) as D. pose proof (Z.mod_pos_bound p (2 ^ k) K) as M.
  destruct (Z.eq_dec (p mod 2 ^ k) 0) as [Z0|NZ].
  - rewrite Z.div_opp_l_z, Z.mod_opp_l_z by lia. rewrite Z0. replace (2 * 0 >? 2 ^ k) with false by lia. replace (2 * 0 =? 2 ^ k) with false by lia. reflexivity.
  - rewrite Z.div_opp_l_nz, Z.mod_opp_l_nz by lia. set (r := p mod 2 ^ k) in *. set (q := p / 2 ^ k) in *.
    assert (O : Z.odd (- q - 1) = negb (Z.odd q)) by (replace (- q - 1) with (- (q + 1)) by lia; rewrite Z.odd_opp, Z.odd_add; destruct (Z.odd q); reflexivity). rewrite O.
    destruct (Z.lt_total (2 * r) (2 ^ k)) as [L|[L|L]].
    + replace (2 * (2 ^ k - r) >? 2 ^ k) with true by lia. replace (2 * r >? 2 ^ k) with false by lia. replace (2 * r =? 2 ^ k) with false by lia. cbn [orb andb]. lia.
    + replace (2 * (2 ^ k - r) >? 2 ^ k) with false by lia. replace (2 * (2 ^ k - r) =? 2 ^ k) with true by lia. replace (2 * r >? 2 ^ k) with false by lia. replace (2 * r =? 2 ^ k) with true by lia.
      cbn [orb andb]. destruct (Z.odd q); cbn [negb]; lia.
    + replace (2 * (2 ^ k - r) >? 2 ^ k) with false by lia. replace (2 * (2 ^ k - r) =? 2 ^ k) with false by lia. replace (2 * r >? 2 ^ k) with true by lia. cbn [orb andb]. lia.
Qed.

Theorem C96_negative rate m e t : BKTimeFromSeconds rate (m, e) = Ok t -> t <> -9223372036854775808 -> BKTimeFromSeconds rate (- m, e) = Ok (- t).
Proof.
  unfold BKTimeFromSeconds. destruct (chk64 (rate * 1048576)) as [a|]; [|discriminate]. cbn [bind]. unfold dmulz. destruct (round53_neg (a * m) e) as (q & f & -> & E). replace (a * - m) with (- (a * m)) by ring. rewrite E.
  unfold dtrunc. intros C NT. assert (X : (if 0 <=? f then - q * 2 ^ f else Z.quot (- q) (2 ^ (- f))) = - (if 0 <=? f then q * 2 ^ f else Z.quot q (2 ^ (- f)))).
  { destruct (0 <=? f) eqn:F; [ring|]. apply Z.quot_opp_l. assert (0 < 2 ^ (- f)) by (apply Z.pow_pos_nonneg; lia). lia. }
  rewrite X. set (z := if 0 <=? f then _ else _) in *. unfold chk64 in *. destruct (in_s64 z) eqn:I; [|discriminate]. assert (z = t) as -> by congruence.
  assert (in_s64 (- t) = true) as -> by (unfold in_s64 in *; lia). reflexivity.
Qed.

(** Whole seconds and other times which are a whole number of samples below 2^33 are exact. *)
Theorem C96_exact rate m n t : rate_ok rate -> 0 <= m < 2 ^ 53 -> 0 <= n -> rate * 1048576 * m = t * 2 ^ n -> t < 2 ^ 53 -> BKTimeFromSeconds rate (m, - n) = Ok t.
Proof.
  intros R M N X TB. assert (PN : 0 < 2 ^ n) by (apply Z.pow_pos_nonneg; lia). assert (0 <= t) by (unfold rate_ok in R; nia).
  assert (B : rate * 1048576 * m < 2 ^ 62 * 2 ^ n) by (rewrite X; apply Z.mul_lt_mono_pos_r; [exact PN|]; apply Z.lt_trans with (2 ^ 53); [exact TB|reflexivity]).
  unfold BKTimeFromSeconds, chk64. assert (in_s64 (rate * 1048576) = true) as -> by (unfold in_s64, rate_ok in *; lia). cbn [bind]. unfold dmulz.
  set (p := rate * 1048576 * m) in *. assert (P : 0 <= p) by lia.
  destruct (round53_spec p (- n) P) as (q & k & -> & K0 & Q0 & E & KZ & KP & _). assert (PK : 0 < 2 ^ k) by (apply Z.pow_pos_nonneg; lia).
  (* the product has at most 53 significant bits, so it is not rounded *)
  assert (QP : q * 2 ^ k = t * 2 ^ n).
  { destruct (Z.eq_dec k 0) as [Z0|NZ]; [rewrite (KZ Z0), Z0; change (2 ^ 0) with 1; lia|]. specialize (KP ltac:(lia)).
    assert (KN : k <= n). { destruct (Z_le_gt_dec k n) as [L|G]; [exact L|exfalso]. assert (2 ^ (n + 1) <= 2 ^ k) by (apply Z.pow_le_mono_r; lia).
      rewrite Z.pow_add_r in H0 by lia. change (2 ^ 1) with 2 in H0. change (2 ^ 53) with (2 * 2 ^ 52) in TB. nia. }
    assert (DK : 2 ^ n = 2 ^ (n - k) * 2 ^ k) by (rewrite <- Z.pow_add_r by lia; f_equal; lia). rewrite X, DK in E.
    rewrite DK. set (D := 2 ^ (n - k)) in *. replace (q * 2 ^ k - t * (D * 2 ^ k)) with ((q - t * D) * 2 ^ k) in E by ring. rewrite Z.abs_mul, (Z.abs_eq (2 ^ k)) in E by lia.
    assert (Z.abs (q - t * D) < 1) by nia. assert (q = t * D) as -> by lia. ring. }
  assert (dtrunc (q, - n + k) = t) as ->.
  { unfold dtrunc. destruct (0 <=? - n + k) eqn:S.
    - assert (DK : 2 ^ k = 2 ^ (- n + k) * 2 ^ n) by (rewrite <- Z.pow_add_r by lia; f_equal; lia). rewrite DK in QP. nia.
    - rewrite Z.quot_div_nonneg by (try apply Z.pow_pos_nonneg; lia). assert (DK : 2 ^ n = 2 ^ (- (- n + k)) * 2 ^ k) by (rewrite <- Z.pow_add_r by lia; f_equal; lia). rewrite DK in QP.
      assert (q = t * 2 ^ (- (- n + k))) as -> by nia. apply Z.div_mul. assert (0 < 2 ^ (- (- n + k))) by (apply Z.pow_pos_nonneg; lia). lia. }
  assert (in_s64 t = true) as -> by (change (2 ^ 53) with 9007199254740992 in TB; unfold in_s64; lia). reflexivity.
Qed.

Example C96_example : rate_ok 44100 /\ BKTimeFromSeconds 44100 (3, 0) = Ok (3 * 44100 * 1048576) /\ BKTimeFromSeconds 44100 (1, -1) = Ok (22050 * 1048576) /\
  BKTimeFromSeconds 44100 (dquot 1 3) = Ok (14700 * 1048576) /\ BKTimeFromSeconds 44100 (1, 2) = Ok (4 * 44100 * 1048576) /\
  BKTimeFromSeconds 44100 (1, -30) = Ok 43 /\ BKTimeFromSeconds 44100 (-1, -30) = Ok (-43) /\ BKTimeFromSeconds 44100 (1, -1074) = Ok 0.
Proof. split; [unfold rate_ok; lia|]. repeat split; vm_compute; reflexivity. Qed.

(** * C97: the master clock *)

(** What is proved here for any number: a product near to a whole number of units. *)
Lemma near_whole p y k q : 0 <= k <= 60 -> 0 <= y -> p = 2 ^ 60 * y - 16 * y -> p < 2 ^ k * 2 ^ 53 -> 2 * Z.abs (q * 2 ^ k - p) <= 2 ^ k -> q * 2 ^ k = y * 2 ^ 60.
Proof.
  intros K Y P U E. assert (DK : 2 ^ 60 = 2 ^ (60 - k) * 2 ^ k) by (rewrite <- Z.pow_add_r by lia; f_equal; lia).
  assert (PK : 0 < 2 ^ k) by (apply Z.pow_pos_nonneg; lia). set (D := 2 ^ (60 - k)) in *. set (W := 2 ^ k) in *. 
  assert (Y2 : 64 * y <= W). { change (2 ^ 60) with (128 * 2 ^ 53) in P. assert (0 < 2 ^ 53) by reflexivity. nia. }
  assert (X : Z.abs (q * W - y * 2 ^ 60) < W) by lia. rewrite DK in *. replace (q * W - y * (D * W)) with ((q - y * D) * W) in X by ring. rewrite Z.abs_mul, (Z.abs_eq W) in X by lia.
  assert (Z.abs (q - y * D) < 1) by nia. assert (q = y * D) as -> by lia. ring.
Qed.

(** The period is 1/240 second cut off to whole units, for every sample rate and in both variants. *)
Theorem C97_period rate : rate_ok rate -> default_period rate = Ok (rate * 65536 / 15).
Proof.
  intros R. unfold default_period, BKTimeFromSeconds, chk64. assert (in_s64 (rate * 1048576) = true) as -> by (unfold in_s64, rate_ok in *; lia). cbn [bind].
  change default_seconds with (4803839602528529, -60). unfold dmulz, rate_ok in *. set (p := rate * 1048576 * 4803839602528529).
  destruct (round53_spec p (-60) ltac:(lia)) as (q & k & -> & K0 & Q0 & E & KZ & KP & KU).
  assert (PK : 0 < 2 ^ k) by (apply Z.pow_pos_nonneg; lia). assert (KB : k <= 37).
  { destruct (Z_le_gt_dec k 37) as [L|G]; [exact L|exfalso]. assert (2 ^ 38 <= 2 ^ k) by (apply Z.pow_le_mono_r; lia). specialize (KP ltac:(lia)). change (2 ^ 38) with 274877906944 in *. change (2 ^ 52) with 4503599627370496 in *. lia. }
  assert (W : 2 ^ k <= 2 ^ 37) by (apply Z.pow_le_mono_r; lia).
  set (y := rate * 65536 / 15). pose proof (Z.div_mod (rate * 65536) 15 ltac:(lia)) as YD. fold y in YD. pose proof (Z.mod_pos_bound (rate * 65536) 15 ltac:(lia)) as YM.
  set (s := (rate * 65536) mod 15) in *.
  assert (T : y * 2 ^ 60 <= q * 2 ^ k < (y + 1) * 2 ^ 60).
  { change (2 ^ 37) with 137438953472 in W. destruct (Z.eq_dec s 0) as [S0|S0].
    - assert (q * 2 ^ k = y * 2 ^ 60) as ->; [|change (2 ^ 60) with 1152921504606846976; lia].
      apply (near_whole p y k q); try lia.
    - change (2 ^ 60) with 1152921504606846976. lia. }
  unfold dtrunc. assert (0 <=? -60 + k = false) as -> by lia. rewrite Z.quot_div_nonneg by (try apply Z.pow_pos_nonneg; lia).
  assert (DK : 2 ^ 60 = 2 ^ (- (-60 + k)) * 2 ^ k) by (rewrite <- Z.pow_add_r by lia; f_equal; lia). rewrite DK in T. set (D := 2 ^ (- (-60 + k))) in *. assert (DP : 0 < D) by (apply Z.pow_pos_nonneg; lia).
  assert (q / D = y) as -> by (symmetry; apply Z.div_unique with (q - D * y); [left; nia|lia]).
  assert (in_s64 y = true) as -> by (unfold in_s64; lia). reflexivity.
Qed.

(** * Both variants *)

(** A product with at most 53 significant bits is not rounded. *)
Lemma round53_exact a j e : 0 <= a < 2 ^ 53 -> 0 <= j -> exists q k, round53 (a * 2 ^ j) e = (q, e + k) /\ 0 <= k /\ 0 <= q /\ q * 2 ^ k = a * 2 ^ j.
Proof.
  intros A J. assert (PJ : 0 < 2 ^ j) by (apply Z.pow_pos_nonneg; lia).
  destruct (round53_spec (a * 2 ^ j) e ltac:(lia)) as (q & k & R & K0 & Q0 & E & KZ & KP & _). exists q, k. split; [exact R|]. split; [exact K0|]. split; [exact Q0|]. clear R.
  assert (PK : 0 < 2 ^ k) by (apply Z.pow_pos_nonneg; lia). destruct (Z.eq_dec k 0) as [Z0|NZ]; [rewrite (KZ Z0), Z0; change (2 ^ 0) with 1; lia|]. specialize (KP ltac:(lia)).
  assert (KN : k <= j). { destruct (Z_le_gt_dec k j) as [L|G]; [exact L|exfalso]. assert (H0 : 2 ^ (j + 1) <= 2 ^ k) by (apply Z.pow_le_mono_r; lia).
    rewrite Z.pow_add_r in H0 by lia. change (2 ^ 1) with 2 in H0. change (2 ^ 53) with (2 * 2 ^ 52) in A. nia. }
  assert (DK : 2 ^ j = 2 ^ (j - k) * 2 ^ k) by (rewrite <- Z.pow_add_r by lia; f_equal; lia). rewrite DK in *. set (D := 2 ^ (j - k)) in *.
  replace (q * 2 ^ k - a * (D * 2 ^ k)) with ((q - a * D) * 2 ^ k) in E by ring. rewrite Z.abs_mul, (Z.abs_eq (2 ^ k)) in E by lia.
  assert (Z.abs (q - a * D) < 1) by nia. assert (q = a * D) as -> by lia. ring.
Qed.

Lemma round53_exact' a j e : 0 <= a <= 2 ^ 53 -> 0 <= j -> exists q k, round53 (a * 2 ^ j) e = (q, e + k) /\ 0 <= k /\ 0 <= q /\ q * 2 ^ k = a * 2 ^ j.
Proof.
  intros A J. destruct (Z.eq_dec a (2 ^ 53)) as [->|N]; [|apply round53_exact; lia]. rewrite <- Z.pow_add_r by lia.
  destruct (round53_exact 1 (53 + j) e ltac:(split; [lia|reflexivity]) ltac:(lia)) as (q & k & H). exists q, k. rewrite Z.mul_1_l in H. exact H.
Qed.

(** Rounding does not depend on the scale. *)
Lemma round53_scale p j e : 0 <= p -> 0 <= j -> exists q k q' k', round53 p e = (q, e + k) /\ round53 (p * 2 ^ j) e = (q', e + k') /\ 0 <= k /\ 0 <= k' /\ 0 <= q < 2 ^ 53 + 1 /\ 0 <= q' /\ q' * 2 ^ k' = q * 2 ^ k * 2 ^ j.
Proof.
  intros P J. assert (PJ : 0 < 2 ^ j) by (apply Z.pow_pos_nonneg; lia). destruct (Z_lt_le_dec (Z.log2 p) 53) as [S|S].
  - assert (PB : p < 2 ^ 53). { destruct (Z.eq_dec p 0) as [->|]; [reflexivity|]. apply Z.log2_lt_pow2; lia. }
    destruct (round53_exact p 0 e ltac:(lia) ltac:(lia)) as (q & k & R & K & Q & E). destruct (round53_exact p j e ltac:(lia) J) as (q' & k' & R' & K' & Q' & E').
    change (2 ^ 0) with 1 in *. rewrite Z.mul_1_r in *. exists q, k, q', k'. assert (0 < 2 ^ k) by (apply Z.pow_pos_nonneg; lia). repeat split; try assumption; try nia.
  - assert (PP : 0 < p). { destruct (Z.eq_dec p 0) as [->|]; [cbn in S; lia|lia]. }
    assert (L : Z.log2 (p * 2 ^ j) = Z.log2 p + j) by (rewrite Z.log2_mul_pow2 by lia; lia).
    unfold round53. rewrite !Z.abs_eq by nia. rewrite L. set (k := Z.log2 p - 52). replace (Z.max 0 k) with k by lia. replace (Z.max 0 (Z.log2 p + j - 52)) with (k + j) by lia.
    assert (K : 0 < 2 ^ k) by (apply Z.pow_pos_nonneg; lia). rewrite Z.pow_add_r by lia. rewrite Z.div_mul_cancel_r, Z.mul_mod_distr_r by lia.
    assert (C1 : (2 * (p mod 2 ^ k * 2 ^ j) >? 2 ^ k * 2 ^ j) = (2 * (p mod 2 ^ k) >? 2 ^ k)).
    { rewrite !Z.gtb_ltb. destruct (2 ^ k <? 2 * (p mod 2 ^ k)) eqn:X; [apply Z.ltb_lt in X; apply Z.ltb_lt|apply Z.ltb_ge in X; apply Z.ltb_ge]; nia. }
    assert (C2 : (2 * (p mod 2 ^ k * 2 ^ j) =? 2 ^ k * 2 ^ j) = (2 * (p mod 2 ^ k) =? 2 ^ k)).
    { destruct (2 * (p mod 2 ^ k) =? 2 ^ k) eqn:X; [apply Z.eqb_eq in X; apply Z.eqb_eq|apply Z.eqb_neq in X; apply Z.eqb_neq]; nia. }
    rewrite C1, C2. assert (Q : 0 <= p / 2 ^ k) by (apply Z.div_pos; lia).
    assert (QU : p / 2 ^ k < 2 ^ 53). { apply Z.div_lt_upper_bound; [exact K|]. rewrite <- Z.pow_add_r by lia. replace (k + 53) with (Z.succ (Z.log2 p)) by lia. apply Z.log2_spec. exact PP. }
    set (u := (2 * (p mod 2 ^ k) >? 2 ^ k) || ((2 * (p mod 2 ^ k) =? 2 ^ k) && Z.odd (p / 2 ^ k))). set (r := if u then p / 2 ^ k + 1 else p / 2 ^ k). assert (R : 0 <= r < 2 ^ 53 + 1) by (unfold r; destruct u; lia).
    exists r, k, r, (k + j). split; [reflexivity|]. split; [reflexivity|]. rewrite Z.pow_add_r by lia. repeat split; try lia; ring.
Qed.

(** Conversion to an integer. *)
Lemma dtrunc_spec q n k : 0 <= q -> 0 <= n -> 0 <= k -> exists t, dtrunc (q, - n + k) = t /\ 0 <= t /\ t * 2 ^ n <= q * 2 ^ k < (t + 1) * 2 ^ n.
Proof.
  intros Q0 N K. assert (PN : 0 < 2 ^ n) by (apply Z.pow_pos_nonneg; lia). assert (PK : 0 < 2 ^ k) by (apply Z.pow_pos_nonneg; lia). unfold dtrunc. destruct (0 <=? - n + k) eqn:S.
  - exists (q * 2 ^ (- n + k)). split; [reflexivity|]. assert (0 < 2 ^ (- n + k)) by (apply Z.pow_pos_nonneg; lia). split; [nia|].
    replace (2 ^ k) with (2 ^ (- n + k) * 2 ^ n) by (rewrite <- Z.pow_add_r by lia; f_equal; lia). nia.
  - rewrite Z.quot_div_nonneg by (try apply Z.pow_pos_nonneg; lia). eexists. split; [reflexivity|]. set (D := 2 ^ (- (- n + k))). assert (DP : 0 < D) by (apply Z.pow_pos_nonneg; lia).
    split; [apply Z.div_pos; lia|]. assert (DK : 2 ^ n = D * 2 ^ k) by (unfold D; rewrite <- Z.pow_add_r by lia; f_equal; lia). rewrite DK.
    pose proof (Z.div_mod q D ltac:(lia)). pose proof (Z.mod_pos_bound q D DP). nia.
Qed.

(** For any time which is not negative and below 2^31 samples, the variant with two 32-bit parts
    yields the same time as the 64-bit variant, and its fraction is below one sample. *)
Theorem C97_variants rate m n : rate_ok rate -> 0 <= m < 2 ^ 53 -> 0 <= n -> rate * m < (2 ^ 31 - 1) * 2 ^ n ->
  exists t, BKTimeFromSeconds32 rate (m, - n) = Ok t /\ 0 <= t_frac t < 1048576 /\ BKTimeFromSeconds rate (m, - n) = Ok (t_time t * 1048576 + t_frac t).
Proof.
  intros R M N B. unfold BKTimeFromSeconds, BKTimeFromSeconds32, chk64, chk32. assert (in_s64 (rate * 1048576) = true) as -> by (unfold in_s64, rate_ok in *; lia). cbn [bind]. change (dmulz rate (m, - n)) with (round53 (rate * m) (- n)). change (dmulz (rate * 1048576) (m, - n)) with (round53 (rate * 1048576 * m) (- n)).
  set (p := rate * m) in *. assert (P : 0 <= p) by (unfold p, rate_ok in *; nia). replace (rate * 1048576 * m) with (p * 2 ^ 20) by (unfold p; ring).
  destruct (round53_scale p 20 (- n) P ltac:(lia)) as (q & k & q' & k' & E1 & E2 & K & K' & Q & Q' & V).
  destruct (round53_spec p (- n) P) as (q0 & k0 & E0 & _ & _ & E & KZ & KP & _). rewrite E1 in E0. assert (q0 = q) as -> by congruence. assert (- n + k = - n + k0) as KK by congruence. assert (k0 = k) as -> by lia. clear E0 KK.
  rewrite E1, E2. assert (PN : 0 < 2 ^ n) by (apply Z.pow_pos_nonneg; lia). assert (PK : 0 < 2 ^ k) by (apply Z.pow_pos_nonneg; lia).
  assert (EP : 2 ^ 53 * Z.abs (q * 2 ^ k - p) <= p).
  { destruct (Z.eq_dec k 0) as [Z0|NZ]; [rewrite (KZ Z0), Z0; change (2 ^ 0) with 1; rewrite Z.mul_1_r, Z.sub_diag; cbn; lia|].
    specialize (KP ltac:(lia)). change (2 ^ 53) with (2 * 2 ^ 52). nia. }
  destruct (dtrunc_spec q n k ltac:(lia) N K) as (t & -> & T0 & T1). destruct (dtrunc_spec q' n k' Q' N K') as (t' & -> & T0' & T1'). rewrite V in T1'. set (v := q * 2 ^ k) in *.
  assert (TB : t < 2147483648). { change (2 ^ 53) with 9007199254740992 in EP. change (2 ^ 31 - 1) with 2147483647 in B. nia. }
  assert (in_s32 t = true) as -> by (unfold in_s32; lia). cbn [bind].
  assert (F : exists f, dtrunc (dmulz 1048576 (dsubz (q, - n + k) t)) = f /\ 0 <= f /\ f * 2 ^ n <= (v - t * 2 ^ n) * 1048576 < (f + 1) * 2 ^ n).
  { unfold dsubz, dmulz. destruct (0 <=? - n + k) eqn:S.
    - assert (DK : 2 ^ k = 2 ^ (- n + k) * 2 ^ n) by (rewrite <- Z.pow_add_r by lia; f_equal; lia). unfold v in *. rewrite DK in *. assert (t = q * 2 ^ (- n + k)) as -> by nia.
      rewrite Z.sub_diag. exists 0. split; [reflexivity|]. split; [lia|]. nia.
    - assert (DK : 2 ^ n = 2 ^ (- (- n + k)) * 2 ^ k) by (rewrite <- Z.pow_add_r by lia; f_equal; lia). set (D := 2 ^ (- (- n + k))) in *. assert (DP : 0 < D) by (apply Z.pow_pos_nonneg; lia).
      set (d := q - t * D). assert (DD : d * 2 ^ k = v - t * 2 ^ n) by (unfold d, v; rewrite DK; ring). assert (D0 : 0 <= d <= 2 ^ 53) by (split; [nia|unfold d; nia]).
      destruct (round53_exact' d 0 (- n + k) D0 ltac:(lia)) as (d1 & k1 & R1 & K1 & Q1 & V1). change (2 ^ 0) with 1 in R1, V1. rewrite Z.mul_1_r in R1, V1. rewrite R1.
      assert (P1 : 0 < 2 ^ k1) by (apply Z.pow_pos_nonneg; lia). rewrite (Z.mul_comm 1048576 d1). change 1048576 with (2 ^ 20) at 1.
      destruct (round53_exact' d1 20 (- n + k + k1) ltac:(nia) ltac:(lia)) as (d2 & k2 & R2 & K2 & Q2 & V2). rewrite R2.
      replace (- n + k + k1 + k2) with (- n + (k + k1 + k2)) by ring. destruct (dtrunc_spec d2 n (k + k1 + k2) Q2 N ltac:(lia)) as (f & -> & F0 & F1). exists f. split; [reflexivity|]. split; [exact F0|].
      rewrite <- DD, <- V1. rewrite !Z.pow_add_r in F1 by lia. change (2 ^ 20) with 1048576 in V2. replace (d1 * 2 ^ k1 * 2 ^ k * 1048576) with (d2 * (2 ^ k * 2 ^ k1 * 2 ^ k2)); [exact F1|].
      replace (d2 * (2 ^ k * 2 ^ k1 * 2 ^ k2)) with (d2 * 2 ^ k2 * 2 ^ k * 2 ^ k1) by ring. rewrite V2. ring. }
  destruct F as (f & -> & F0 & F1). assert (FB : f < 1048576) by (apply (Z.mul_lt_mono_pos_r (2 ^ n)); [exact PN|lia]). assert ((f <? 0) || (f >? 4294967295) = false) as -> by lia. exists (mk_time32 t f). cbn [t_time t_frac]. split; [reflexivity|]. split; [lia|].
  change (2 ^ 20) with 1048576 in T1'. assert (X1 : t' < t * 1048576 + f + 1) by (apply (Z.mul_lt_mono_pos_r (2 ^ n)); [exact PN|lia]). assert (X2 : t * 1048576 + f < t' + 1) by (apply (Z.mul_lt_mono_pos_r (2 ^ n)); [exact PN|lia]). assert (t' = t * 1048576 + f) as -> by lia. assert (in_s64 (t * 1048576 + f) = true) as -> by (unfold in_s64; lia). reflexivity.
Qed.

(** The default clock: its period in both variants. *)
Theorem C97_period32 rate : rate_ok rate -> exists t, default_period32 rate = Ok t /\ 0 <= t_frac t < 1048576 /\ t_time t * 1048576 + t_frac t = rate * 65536 / 15.
Proof.
  intros R. pose proof (C97_period rate R) as P. destruct (C97_variants rate 4803839602528529 60 R ltac:(split; [lia|reflexivity]) ltac:(lia)) as (t & A & B & C).
  - unfold rate_ok in R. change ((2 ^ 31 - 1) * 2 ^ 60) with (2147483647 * 1152921504606846976). lia.
  - exists t. split; [exact A|]. split; [exact B|]. unfold default_period in P. change default_seconds with (4803839602528529, -60) in P. change (- (60)) with (-60) in C. rewrite C in P. congruence.
Qed.

(** 240 periods take a second less at most 239 units of 2^-20 samples; they never take longer. *)
Theorem C97_ticks_per_second rate : rate_ok rate -> exists period, default_period rate = Ok period /\ 0 < period /\ rate * 1048576 - 240 < 240 * period <= rate * 1048576.
Proof.
  intros R. exists (rate * 65536 / 15). split; [exact (C97_period rate R)|]. unfold rate_ok in R. Z.to_euclidean_division_equations; lia.
Qed.

(** Over a whole day the clock gains less than 21 samples. *)
Theorem C97_drift rate days : rate_ok rate -> 0 <= days -> exists period, default_period rate = Ok period /\
  rate * 86400 * days * 1048576 - 20 * days * 1048576 <= 240 * 86400 * days * period <= rate * 86400 * days * 1048576.
Proof.
  intros R D. exists (rate * 65536 / 15). split; [exact (C97_period rate R)|]. unfold rate_ok in R. pose proof (Z.div_mod (rate * 65536) 15 ltac:(lia)). pose proof (Z.mod_pos_bound (rate * 65536) 15 ltac:(lia)). nia.
Qed.

Example C97_example : rate_ok 44100 /\ default_period 44100 = Ok 192675840 /\ default_period32 44100 = Ok (mk_time32 183 786432) /\
  default_period 48000 = Ok (200 * 1048576) /\ default_period32 48000 = Ok (mk_time32 200 0) /\ default_period 22100 = Ok 96556373.
Proof. split; [unfold rate_ok; lia|]. repeat split; vm_compute; reflexivity. Qed.

(** A negative time in the 32-bit variant: the fraction is negative and conversion to an unsigned
    type is undefined. *)
Theorem C97_negative_refuted : exists rate seconds, rate_ok rate /\ BKTimeFromSeconds rate seconds = Ok (-5644800) /\ BKTimeFromSeconds32 rate seconds = Err EOverflow.
Proof. exists 44100, (-1, -13). split; [unfold rate_ok; lia|]. vm_compute. split; reflexivity. Qed.

Print Assumptions C96_accurate.
Print Assumptions C96_negative.
Print Assumptions C96_exact.
Print Assumptions C97_period.
Print Assumptions C97_variants.
Print Assumptions C97_period32.
Print Assumptions C97_ticks_per_second.
Print Assumptions C97_drift.
Print Assumptions C97_negative_refuted.
