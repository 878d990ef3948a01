(** Properties of [BKTime]: C07, C08. *)
From Verif Require Import CIntFacts TimeModel.

(** The duration a normalised structure stands for, in 2^-20 samples. *)
Definition time_val (a : time32) : Z := t_time a * 1048576 + t_frac a.
(** Normalised: whole samples in 32 bits and a fraction below one sample. *)
Definition time_norm (a : time32) : Prop :=
  -2147483648 <= t_time a <= 2147483647 /\ 0 <= t_frac a < 1048576.
(** Durations that have a normalised structure. *)
Definition time_rep (v : Z) : Prop := -2251799813685248 <= v < 2251799813685248.

Lemma shr20 z : Z.shiftr z 20 = z / 1048576.
Proof. rewrite shiftr_div by lia. reflexivity. Qed.

Lemma norm_land z : 0 <= Z.land z BK_FINT20_FRAC < 1048576.
Proof. unfold BK_FINT20_FRAC. rewrite land_frac. lia. Qed.

Lemma land_mod z : Z.land z BK_FINT20_FRAC = z mod 1048576.
Proof. apply land_frac. Qed.

Ltac tsolve := unfold time_val, time_norm, time_rep in *; cbn [t_time t_frac] in *;
  rewrite ?shr20, ?land_mod in *; unfold s32, u32, chk32, chk64, in_s32, in_s64 in *.

Lemma add_agree a b c : time_norm a -> time_norm b -> time_rep (time_val a + time_val b) ->
  BKTimeAdd32 a b = Ok c ->
  time_norm c /\ BKTimeAdd (time_val a) (time_val b) = Ok (time_val c).
Proof.
  intros Ha Hb Hr E. unfold BKTimeAdd32, BKTimeAdd in *.
  apply bind_ok in E as (s & E1 & E2). apply chk32_inv in E1 as [-> E1].
  inversion E2; subst c; clear E2. tsolve.
  split; [lia|].
  match goal with |- (if ?x then _ else _) = _ => replace x with true by lia end. f_equal. lia.
Qed.

Lemma add_defined a b : -2147483648 <= t_time a + t_time b <= 2147483647 -> exists c, BKTimeAdd32 a b = Ok c.
Proof. intros H. unfold BKTimeAdd32. rewrite chk32_ok by lia. eexists. reflexivity. Qed.

Lemma addf_agree a b : time_norm a -> 0 <= b < 4294967296 - 1048576 -> time_rep (time_val a + b) ->
  time_norm (BKTimeAddFUInt20_32 a b) /\
  BKTimeAddFUInt20 (time_val a) b = Ok (time_val (BKTimeAddFUInt20_32 a b)).
Proof.
  intros Ha Hb Hr. unfold BKTimeAddFUInt20_32, BKTimeAddFUInt20. tsolve.
  split; [lia|].
  match goal with |- (if ?x then _ else _) = _ => replace x with true by lia end. f_equal. lia.
Qed.

Lemma sub_agree a b c : time_norm a -> time_norm b -> BKTimeSub32 a b = Ok c ->
  time_norm c /\ BKTimeSub (time_val a) (time_val b) = Ok (time_val c).
Proof.
  intros Ha Hb E. unfold BKTimeSub32, BKTimeSub in *.
  apply bind_ok in E as (s & E1 & E). apply chk32_inv in E1 as [-> E1].
  apply bind_ok in E as (s & E2 & E). apply chk32_inv in E2 as [-> E2].
  inversion E; subst c; clear E. tsolve.
  split; [lia|].
  match goal with |- (if ?x then _ else _) = _ => replace x with true by lia end. f_equal. lia.
Qed.

Lemma sub_defined a b : time_norm a -> time_norm b ->
  -2147483648 < t_time a - t_time b <= 2147483647 -> exists c, BKTimeSub32 a b = Ok c.
Proof.
  intros Ha Hb H. unfold BKTimeSub32. rewrite chk32_ok by lia. cbn [bind].
  rewrite chk32_ok by (tsolve; lia). eexists. reflexivity.
Qed.

Lemma subf_agree a b c : time_norm a -> 0 <= b <= 2147483648 -> BKTimeSubFUInt20_32 a b = Ok c ->
  time_norm c /\ BKTimeSubFUInt20 (time_val a) b = Ok (time_val c).
Proof.
  intros Ha Hb E. unfold BKTimeSubFUInt20_32, BKTimeSubFUInt20 in *.
  apply bind_ok in E as (s & E1 & E). apply chk32_inv in E1 as [-> E1].
  inversion E; subst c; clear E. tsolve.
  split; [lia|].
  match goal with |- (if ?x then _ else _) = _ => replace x with true by lia end. f_equal. lia.
Qed.

Lemma cmp_agree a b : time_norm a -> time_norm b ->
  BKTimeIsEqual32 a b = BKTimeIsEqual (time_val a) (time_val b) /\
  BKTimeIsGreater32 a b = BKTimeIsGreater (time_val a) (time_val b) /\
  BKTimeIsGreaterEqual32 a b = BKTimeIsGreaterEqual (time_val a) (time_val b) /\
  BKTimeIsLess32 a b = BKTimeIsLess (time_val a) (time_val b) /\
  BKTimeIsLessEqual32 a b = BKTimeIsLessEqual (time_val a) (time_val b).
Proof.
  unfold BKTimeIsEqual32, BKTimeIsEqual, BKTimeIsGreater32, BKTimeIsGreater, BKTimeIsGreaterEqual32,
    BKTimeIsGreaterEqual, BKTimeIsLess32, BKTimeIsLess, BKTimeIsLessEqual32, BKTimeIsLessEqual.
  intros Ha Hb. tsolve. repeat split; lia.
Qed.

Lemma less_f_agree a b : time_norm a -> 0 <= b < 4294967296 ->
  BKTimeIsLessFUInt20_32 a b = BKTimeIsLessFUInt20 (time_val a) b.
Proof.
  intros Ha Hb. unfold BKTimeIsLessFUInt20_32, BKTimeIsLessFUInt20, BKTimeIsLess32. tsolve. lia.
Qed.

Lemma greater_f_agree a b : time_norm a -> 0 <= b < 2147483648 ->
  BKTimeIsGreaterFUInt20_32 a b = BKTimeIsGreaterFUInt20 (time_val a) b.
Proof.
  intros Ha Hb. unfold BKTimeIsGreaterFUInt20_32, BKTimeIsGreaterFUInt20, BKTimeIsGreater32. tsolve. lia.
Qed.

Lemma get_agree a : time_norm a ->
  BKTimeGetTime32 a = BKTimeGetTime (time_val a) /\ BKTimeGetFrac32 a = BKTimeGetFrac (time_val a) /\
  (forall v, BKTimeGetFUInt20_32 a = Ok v -> BKTimeGetFUInt20 (time_val a) = v).
Proof.
  intros Ha. unfold BKTimeGetTime32, BKTimeGetTime, BKTimeGetFrac32, BKTimeGetFrac, BKTimeGetFUInt20_32, BKTimeGetFUInt20.
  split; [tsolve; lia|]. split; [tsolve; lia|].
  intros v E. apply bind_ok in E as (s & E1 & E). apply chk32_inv in E1 as [-> E1].
  inversion E; subst v. change (2 ^ 20) with 1048576. reflexivity.
Qed.

(** ** C07 *)
(** Every operation of the structure variant that has a defined result computes
    the same duration as the integer variant.  Restrictions: 12.20 offsets
    below 4095 samples (addition), up to 2048 samples (subtraction) and below
    2048 samples ("is greater"). *)
Theorem C07_time_variants_partial : forall a b, time_norm a -> time_norm b ->
  (forall c, time_rep (time_val a + time_val b) -> BKTimeAdd32 a b = Ok c ->
     time_norm c /\ BKTimeAdd (time_val a) (time_val b) = Ok (time_val c)) /\
  (forall c, BKTimeSub32 a b = Ok c ->
     time_norm c /\ BKTimeSub (time_val a) (time_val b) = Ok (time_val c)) /\
  (forall o, 0 <= o < 4293918720 -> time_rep (time_val a + o) ->
     time_norm (BKTimeAddFUInt20_32 a o) /\
     BKTimeAddFUInt20 (time_val a) o = Ok (time_val (BKTimeAddFUInt20_32 a o))) /\
  (forall o c, 0 <= o <= 2147483648 -> BKTimeSubFUInt20_32 a o = Ok c ->
     time_norm c /\ BKTimeSubFUInt20 (time_val a) o = Ok (time_val c)) /\
  (forall o, 0 <= o < 4294967296 -> BKTimeIsLessFUInt20_32 a o = BKTimeIsLessFUInt20 (time_val a) o) /\
  (forall o, 0 <= o < 2147483648 -> BKTimeIsGreaterFUInt20_32 a o = BKTimeIsGreaterFUInt20 (time_val a) o) /\
  BKTimeIsEqual32 a b = BKTimeIsEqual (time_val a) (time_val b) /\
  BKTimeIsGreater32 a b = BKTimeIsGreater (time_val a) (time_val b) /\
  BKTimeIsGreaterEqual32 a b = BKTimeIsGreaterEqual (time_val a) (time_val b) /\
  BKTimeIsLess32 a b = BKTimeIsLess (time_val a) (time_val b) /\
  BKTimeIsLessEqual32 a b = BKTimeIsLessEqual (time_val a) (time_val b) /\
  BKTimeGetTime32 a = BKTimeGetTime (time_val a) /\ BKTimeGetFrac32 a = BKTimeGetFrac (time_val a) /\
  (forall v, BKTimeGetFUInt20_32 a = Ok v -> BKTimeGetFUInt20 (time_val a) = v).
Proof.
  intros a b Ha Hb.
  split; [intros c R; exact (add_agree a b c Ha Hb R)|].
  split; [intros c; exact (sub_agree a b c Ha Hb)|].
  split; [intros o Ho; apply addf_agree; [exact Ha|lia]|].
  split; [intros o c Ho; exact (subf_agree a o c Ha Ho)|].
  split; [intros o Ho; exact (less_f_agree a o Ha Ho)|].
  split; [intros o Ho; exact (greater_f_agree a o Ha Ho)|].
  destruct (cmp_agree a b Ha Hb) as (K1 & K2 & K3 & K4 & K5).
  destruct (get_agree a Ha) as (G1 & G2 & G3). tauto.
Qed.

(** The structure operations are defined for all times within half of the range. *)
Theorem C07_time_defined : forall a b, time_norm a -> time_norm b ->
  Z.abs (t_time a) < 1073741824 -> Z.abs (t_time b) < 1073741824 ->
  (exists c, BKTimeAdd32 a b = Ok c) /\ (exists c, BKTimeSub32 a b = Ok c).
Proof.
  intros a b Ha Hb H1 H2. split; [apply add_defined; lia|]. apply sub_defined; (assumption || lia).
Qed.

(** The variants disagree on large offsets: "is greater" compares with a
    negative number on 64-bit systems, subtraction goes the wrong way on 32-bit
    systems, and addition loses 4096 samples there. *)
Theorem C07_time_variants_refuted :
  (exists a o, time_norm a /\ 0 <= o < 4294967296 /\
     BKTimeIsGreaterFUInt20_32 a o <> BKTimeIsGreaterFUInt20 (time_val a) o) /\
  (exists a o c, time_norm a /\ 0 <= o < 4294967296 /\ BKTimeSubFUInt20_32 a o = Ok c /\
     BKTimeSubFUInt20 (time_val a) o <> Ok (time_val c)) /\
  (exists a o, time_norm a /\ 0 <= o < 4294967296 /\
     BKTimeAddFUInt20 (time_val a) o <> Ok (time_val (BKTimeAddFUInt20_32 a o))).
Proof.
  split; [|split].
  - exists (mk_time32 0 0), 2147483648. split; [unfold time_norm; cbn [t_time t_frac]; lia|]. split; [lia|].
    vm_compute. discriminate.
  - exists (mk_time32 10000 0), 2147483649, (mk_time32 12047 1048575).
    split; [unfold time_norm; cbn [t_time t_frac]; lia|]. split; [lia|].
    split; [vm_compute; reflexivity|]. vm_compute. discriminate.
  - exists (mk_time32 10 1), 4294967295.
    split; [unfold time_norm; cbn [t_time t_frac]; lia|]. split; [lia|]. vm_compute. discriminate.
Qed.

Example C07_example : exists c, BKTimeSub32 (mk_time32 100 5) (mk_time32 40 77) = Ok c /\
  c = mk_time32 59 1048504 /\ time_norm c /\ time_norm (mk_time32 100 5) /\ time_norm (mk_time32 40 77).
Proof. eexists. split; [vm_compute; reflexivity|]. unfold time_norm; cbn [t_time t_frac]. repeat split; lia. Qed.

(** ** C08 *)
(** On 64-bit systems exact for sample counts below 2048; on 32-bit systems exact for all. *)
Theorem C08_time_make_partial : forall samples frac, 0 <= samples < 2048 -> 0 <= frac < 1048576 ->
  exists t, BKTimeMake samples frac = Ok t /\ BKTimeGetTime t = samples /\ BKTimeGetFrac t = frac /\
            t = samples * 1048576 + frac.
Proof.
  intros s f Hs Hf. unfold BKTimeMake. change (2 ^ 20) with 1048576. rewrite chk32_ok by lia.
  cbn [bind]. eexists. split; [reflexivity|]. unfold BKTimeGetTime, BKTimeGetFrac. tsolve. lia.
Qed.

Theorem C08_time_make32 : forall samples frac, -2147483648 <= samples <= 2147483647 -> 0 <= frac < 1048576 ->
  BKTimeGetTime32 (BKTimeMake32 samples frac) = samples /\ BKTimeGetFrac32 (BKTimeMake32 samples frac) = frac.
Proof.
  intros s f Hs Hf. unfold BKTimeMake32, BKTimeGetTime32, BKTimeGetFrac32. tsolve. lia.
Qed.

(** From 2048 samples on (46 ms at 44100 Hz) the shift overflows. *)
Theorem C08_time_make_refuted : forall samples frac, 2048 <= samples <= 2147483647 ->
  BKTimeMake samples frac = Err EOverflow.
Proof.
  intros s f Hs. unfold BKTimeMake. change (2 ^ 20) with 1048576. unfold chk32, in_s32.
  replace ((-2147483648 <=? s * 1048576) && (s * 1048576 <=? 2147483647)) with false by lia. reflexivity.
Qed.

(** Negative sample counts are defined but turn into large positive times. *)
Theorem C08_time_make_negative_refuted :
  BKTimeMake (-1) 0 = Ok 4293918720 /\ BKTimeGetTime 4293918720 = 4095.
Proof. vm_compute. auto. Qed.

Example C08_example : BKTimeMake 2047 1048575 = Ok 2147483647.
Proof. vm_compute. reflexivity. Qed.

Print Assumptions C07_time_variants_partial.
Print Assumptions C07_time_defined.
Print Assumptions C07_time_variants_refuted.
Print Assumptions C08_time_make_partial.
Print Assumptions C08_time_make32.
Print Assumptions C08_time_make_refuted.
Print Assumptions C08_time_make_negative_refuted.
