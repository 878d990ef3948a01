(** Properties of objects and basic functions: C63, C64, C66. *)
From Coq Require Import String.
From Verif Require Import CInt CIntFacts WaveModel ObjectModel.
Open Scope Z_scope.
Ltac Zify.zify_post_hook ::= idtac.

(** * C63: objects *)

(** Calls without object or without a function for them return an error and change nothing. *)
Theorem C63_no_object {A} (a v p s : Z) :
  BKSetAttr (A := A) None a v = Ok (BK_INVALID_STATE, None) /\ BKGetAttr (A := A) None a = Ok (BK_INVALID_STATE, None) /\
  BKSetPtr (A := A) None a p s = Ok (BK_INVALID_STATE, None) /\ BKGetPtr (A := A) None a s = Ok (BK_INVALID_STATE, None).
Proof. repeat split. Qed.

Theorem C63_no_function {A} (o : object A) c a v p s : o_freed o = false -> o_isa o = Some c ->
  (c_setAttr c = None -> BKSetAttr (Some o) a v = Ok (BK_INVALID_STATE, Some o)) /\
  (c_getAttr c = None -> BKGetAttr (Some o) a = Ok (BK_INVALID_STATE, None)) /\
  (c_setPtr c = None -> BKSetPtr (Some o) a p s = Ok (BK_INVALID_STATE, Some o)) /\
  (c_getPtr c = None -> BKGetPtr (Some o) a s = Ok (BK_INVALID_STATE, None)).
Proof.
  intros F I. unfold BKSetAttr, BKGetAttr, BKSetPtr, BKGetPtr, get_isa. rewrite F, I. cbn [bind deref].
  repeat split; intros E; rewrite E; reflexivity.
Qed.

(** Calls reach the function of the class and give its result. *)
Theorem C63_dispatch {A} (o : object A) c a v p s : o_freed o = false -> o_isa o = Some c ->
  (forall f, c_setAttr c = Some f -> BKSetAttr (Some o) a v = Ok (snd (f (o_rest o) a v), Some (with_rest o (fst (f (o_rest o) a v))))) /\
  (forall f, c_getAttr c = Some f -> BKGetAttr (Some o) a = Ok (snd (f (o_rest o) a), Some (fst (f (o_rest o) a)))) /\
  (forall f, c_setPtr c = Some f -> BKSetPtr (Some o) a p s = Ok (snd (f (o_rest o) a p s), Some (with_rest o (fst (f (o_rest o) a p s))))) /\
  (forall f, c_getPtr c = Some f -> BKGetPtr (Some o) a s = Ok (snd (f (o_rest o) a s), Some (fst (f (o_rest o) a s)))).
Proof.
  intros F I. unfold BKSetAttr, BKGetAttr, BKSetPtr, BKGetPtr, get_isa. rewrite F, I. cbn [bind deref].
  repeat split; intros f E; rewrite E.
  - destruct (f (o_rest o) a v); reflexivity.
  - destruct (f (o_rest o) a); reflexivity.
  - destruct (f (o_rest o) a p s); reflexivity.
  - destruct (f (o_rest o) a s); reflexivity.
Qed.

(** Initialising clears the object whatever it was; a wrong size or a missing class is rejected. *)
Theorem C63_init {A} (zero : A) o c size :
  BKObjectInit zero (Some o) (Some c) size = (if size =? c_size c then (0, Some (mk_object true false (Some c) zero (o_freed o))) else (BK_ALLOCATION_ERROR, Some o)) /\
  BKObjectInit zero (Some o) None size = (BK_ALLOCATION_ERROR, Some o) /\ BKObjectInit zero None (Some c) size = (BK_ALLOCATION_ERROR, None) /\
  BKObjectAlloc zero (Some c) = (if c_size c =? 0 then (BK_ALLOCATION_ERROR, None) else (0, Some (mk_object true true (Some c) zero false))) /\
  BKObjectAlloc (A := A) zero None = (BK_ALLOCATION_ERROR, None).
Proof.
  split; [|repeat split]. unfold BKObjectInit. rewrite Z.eqb_sym. destruct (size =? c_size c); reflexivity.
Qed.

(** Number of initialisations in a history. *)
Fixpoint inits {A} (ops : list (oop A)) : nat :=
  match ops with
  | [] => 0
  | OInit _ :: ops => S (inits ops)
  | _ :: ops => inits ops
  end.
Definition pending {A} (o : object A) : nat := if o_init o then 1 else 0.

(** The memory belongs to the client. *)
Definition client {A} (o : object A) : Prop := o_alloc o = false /\ o_freed o = false.

Lemma step_once {A} (zero : A) o op o' k : client o -> ostep zero (Some o) op = Ok (o', k) ->
  exists p, o' = Some p /\ client p /\ (k + pending p <= pending o + match op with OInit _ => 1 | _ => 0 end)%nat.
Proof.
  intros [C F] E. destruct op as [c|a v|a|a q s|a s|]; cbn [ostep] in E.
  - rewrite F in E. cbn [BKObjectInit] in E. rewrite Z.eqb_refl in E. cbn [negb snd] in E.
    assert (o' = Some (mk_object true false (Some c) zero (o_freed o)) /\ k = 0%nat) as [-> ->] by (split; congruence).
    eexists. split; [reflexivity|]. split; [split; [reflexivity|exact F]|]. unfold pending. cbn [o_init]. destruct (o_init o); lia.
  - unfold BKSetAttr, get_isa in E. rewrite F in E. cbn [bind] in E. destruct (o_isa o) as [c|]; [|discriminate]. cbn [deref bind] in E.
    destruct (c_setAttr c) as [f|]; [destruct (f (o_rest o) a v) as [a' r']|]; cbn [bind] in E.
    + assert (o' = Some (with_rest o a') /\ k = 0%nat) as [-> ->] by (split; congruence). eexists. split; [reflexivity|]. split; [split; assumption|]. unfold pending. cbn [o_init with_rest]. lia.
    + assert (o' = Some o /\ k = 0%nat) as [-> ->] by (split; congruence). exists o. split; [reflexivity|]. split; [split; assumption|lia].
  - destruct (BKGetAttr (Some o) a); [|discriminate]. cbn [bind] in E. assert (o' = Some o /\ k = 0%nat) as [-> ->] by (split; congruence). exists o. split; [reflexivity|]. split; [split; assumption|lia].
  - unfold BKSetPtr, get_isa in E. rewrite F in E. cbn [bind] in E. destruct (o_isa o) as [c|]; [|discriminate]. cbn [deref bind] in E.
    destruct (c_setPtr c) as [f|]; [destruct (f (o_rest o) a q s) as [a' r']|]; cbn [bind] in E.
    + assert (o' = Some (with_rest o a') /\ k = 0%nat) as [-> ->] by (split; congruence). eexists. split; [reflexivity|]. split; [split; assumption|]. unfold pending. cbn [o_init with_rest]. lia.
    + assert (o' = Some o /\ k = 0%nat) as [-> ->] by (split; congruence). exists o. split; [reflexivity|]. split; [split; assumption|lia].
  - destruct (BKGetPtr (Some o) a s); [|discriminate]. cbn [bind] in E. assert (o' = Some o /\ k = 0%nat) as [-> ->] by (split; congruence). exists o. split; [reflexivity|]. split; [split; assumption|lia].
  - unfold BKDispose, get_isa in E. rewrite F in E. cbn [bind] in E. destruct (o_isa o) as [c|].
    + destruct (o_init o) eqn:I; cbn [negb] in E.
      * assert (o' = Some (mk_object false false None zero (o_alloc o)) /\ k = match c_dispose c with Some _ => 1%nat | None => 0%nat end) as [-> ->] by (split; congruence).
        eexists. split; [reflexivity|]. split; [split; [reflexivity|exact C]|]. unfold pending. cbn [o_init]. rewrite I. destruct (c_dispose c); lia.
      * assert (o' = Some o /\ k = 0%nat) as [-> ->] by (split; congruence). exists o. split; [reflexivity|]. split; [split; assumption|lia].
    + assert (o' = Some o /\ k = 0%nat) as [-> ->] by (split; congruence). exists o. split; [reflexivity|]. split; [split; assumption|lia].
Qed.

(** However an object is used, its destructor runs at most once for every initialisation. *)
Theorem C63_destructor_at_most_once {A} (zero : A) ops : forall o o' n, client o -> oruns zero (Some o) ops = Ok (o', n) -> (n <= pending o + inits ops)%nat.
Proof.
  induction ops as [|op ops IH]; intros o o' n C E; cbn [oruns] in E.
  - assert (n = 0%nat) as -> by congruence. lia.
  - destruct (ostep zero (Some o) op) as [[o1 k]|] eqn:S; [|discriminate]. cbn [bind] in E.
    destruct (step_once zero o op o1 k C S) as (p & -> & CP & L).
    destruct (oruns zero (Some p) ops) as [[o2 m]|] eqn:R; [|discriminate]. cbn [bind] in E. assert (n = (k + m)%nat) as -> by congruence.
    specialize (IH p o2 m CP R). destruct op; cbn [inits]; lia.
Qed.

(** Calls which use an object. *)
Definition uses {A} (op : oop A) : Prop := match op with OInit _ | ODispose => False | _ => True end.

(** An object of a class [c] in use. *)
Definition in_use {A} (c : class A) (o : object A) : Prop := o_init o = true /\ o_isa o = Some c /\ o_freed o = false.

Lemma use_step {A} (zero : A) c o op : in_use c o -> uses op -> exists p, ostep zero (Some o) op = Ok (Some p, 0%nat) /\ in_use c p /\ o_alloc p = o_alloc o.
Proof.
  intros (I & S & F) U. destruct op as [c'|a v|a|a q s|a s|]; try contradiction; cbn [ostep];
    unfold BKSetAttr, BKGetAttr, BKSetPtr, BKGetPtr, get_isa; rewrite F, S; cbn [bind deref].
  - destruct (c_setAttr c) as [f|]; [destruct (f (o_rest o) a v) as [a' r']|]; cbn [bind]; eexists; (split; [reflexivity|]); repeat split; assumption.
  - destruct (c_getAttr c) as [f|]; [destruct (f (o_rest o) a) as [a' r']|]; cbn [bind]; eexists; (split; [reflexivity|]); repeat split; assumption.
  - destruct (c_setPtr c) as [f|]; [destruct (f (o_rest o) a q s) as [a' r']|]; cbn [bind]; eexists; (split; [reflexivity|]); repeat split; assumption.
  - destruct (c_getPtr c) as [f|]; [destruct (f (o_rest o) a s) as [a' r']|]; cbn [bind]; eexists; (split; [reflexivity|]); repeat split; assumption.
Qed.

Lemma use_steps {A} (zero : A) c ops : forall o, in_use c o -> Forall uses ops -> forall rest,
  exists p, in_use c p /\ o_alloc p = o_alloc o /\ oruns zero (Some o) (ops ++ rest) = oruns zero (Some p) rest.
Proof.
  induction ops as [|op ops IH]; intros o U F rest.
  - exists o. repeat split; try apply U.
  - destruct (use_step zero c o op U (Forall_inv F)) as (p & E & UP & AP). destruct (IH p UP (Forall_inv_tail F) rest) as (q & UQ & AQ & EQ).
    exists q. split; [exact UQ|]. split; [congruence|]. cbn [app oruns]. rewrite E. cbn [bind]. rewrite EQ.
    destruct (oruns zero (Some q) rest) as [[o2 m]|]; reflexivity.
Qed.

Definition destructors {A} (c : class A) : nat := match c_dispose c with Some _ => 1 | None => 0 end.

(** An object in memory of the client can be disposed any number of times after any use; its
    destructor runs exactly once. *)
Theorem C63_dispose_any_times_partial {A} (zero : A) c o ops n : client o -> Forall uses ops ->
  oruns zero (Some o) (OInit c :: ops ++ ODispose :: repeat ODispose n) = Ok (Some (mk_object false false None zero false), destructors c).
Proof.
  intros [C F] U. cbn [oruns ostep]. rewrite F. cbn [BKObjectInit]. rewrite Z.eqb_refl. cbn [negb snd bind]. rewrite F.
  set (o1 := mk_object true false (Some c) zero false). assert (U1 : in_use c o1) by (repeat split).
  destruct (use_steps zero c ops o1 U1 U (ODispose :: repeat ODispose n)) as (p & (I & S & FP) & AP & E). rewrite E.
  cbn [oruns ostep]. unfold BKDispose at 1, get_isa. rewrite FP. cbn [bind]. rewrite S, I. cbn [negb]. rewrite AP. cbn [o_alloc o1 bind].
  assert (R : forall n, oruns zero (Some (mk_object false false None zero false)) (repeat ODispose n) = Ok (Some (mk_object false false None zero false), 0%nat)).
  { clear. induction n as [|n IH]; [reflexivity|]. cbn [repeat oruns ostep]. unfold BKDispose, get_isa. cbn [o_freed bind o_isa]. rewrite IH. reflexivity. }
  rewrite R. cbn [bind]. unfold destructors. destruct (c_dispose c); reflexivity.
Qed.

(** An allocated object can be used and disposed once, which gives back its memory. *)
Theorem C63_allocated_partial {A} (zero : A) c ops : c_size c <> 0 -> Forall uses ops ->
  exists o, BKObjectAlloc zero (Some c) = (0, Some o) /\
    oruns zero (Some o) (ops ++ [ODispose]) = Ok (Some (mk_object false false None zero true), destructors c).
Proof.
  intros Z0 U. unfold BKObjectAlloc. destruct (c_size c =? 0) eqn:E0; [lia|]. eexists. split; [reflexivity|].
  destruct (use_steps zero c ops (mk_object true true (Some c) zero false) ltac:(repeat split) U [ODispose]) as (p & (I & S & FP) & AP & E). rewrite E.
  cbn [oruns ostep]. unfold BKDispose, get_isa. rewrite FP. cbn [bind]. rewrite S, I. cbn [negb]. rewrite AP. cbn [o_alloc bind]. unfold destructors.
  destruct (c_dispose c); reflexivity.
Qed.

(** A class with a counter as attribute 1. *)
Definition counter : class Z :=
  mk_class 24 (Some (fun _ => 0)) (Some (fun a k v => if k =? 1 then (v, 0) else (a, BK_INVALID_ATTRIBUTE))) (Some (fun a k => (a, 0))) None None.
Definition garbage : object Z := mk_object true false None 77 false.
Example C63_example : client garbage /\ Forall uses [OSetAttr (A := Z) 1 5; OGetAttr 1; OSetPtr 3 0 0] /\
  oruns 0 (Some garbage) [OInit counter; OSetAttr 1 5; OGetAttr 1; OSetPtr 3 0 0; ODispose; ODispose] = Ok (Some (mk_object false false None 0 false), 1%nat) /\
  oruns 0 (Some garbage) [OInit counter; ODispose; ODispose; OInit counter; ODispose] = Ok (Some (mk_object false false None 0 false), 2%nat).
Proof. split; [split; reflexivity|]. split; [repeat constructor|]. split; vm_compute; reflexivity. Qed.

(** Disposing an allocated object twice uses its memory after it was given back. *)
Theorem C63_dispose_twice_refuted : exists (c : class Z) o, BKObjectAlloc 0 (Some c) = (0, Some o) /\ oruns 0 (Some o) [ODispose; ODispose] = Err EFreed.
Proof. exists counter. eexists. split; vm_compute; reflexivity. Qed.

(** Attribute access to a disposed object follows the null pointer its class was set to. *)
Theorem C63_disposed_attr_refuted : exists (c : class Z) o, client o /\
  oruns 0 (Some o) [OInit c; ODispose; OSetAttr 1 5] = Err ENull /\ oruns 0 (Some o) [OInit c; ODispose; OGetAttr 1] = Err ENull /\
  oruns 0 (Some o) [OInit c; ODispose; OSetPtr 1 5 5] = Err ENull /\ oruns 0 (Some o) [OInit c; ODispose; OGetPtr 1 5] = Err ENull.
Proof. exists counter, garbage. split; [split; reflexivity|]. repeat split; vm_compute; reflexivity. Qed.

(** * C64: names *)

Definition is_status (status : Z) : Prop := 0 <= status < 4294967296.

Lemma type_bits : u32 BK_RETURN_TYPE = 4294938624 /\ u32 BK_OTHER_ERROR = 4294938637.
Proof. split; reflexivity. Qed.

(** The names of all errors. *)
Theorem C64_error_names k name : 1 <= k <= 13 -> nth_error statusNames (Z.to_nat k) = Some name ->
  name <> None /\ BKStatusGetName (u32 (BK_RETURN_TYPE + k)) = Ok name.
Proof.
  intros K E. assert (k = 1 \/ k = 2 \/ k = 3 \/ k = 4 \/ k = 5 \/ k = 6 \/ k = 7 \/ k = 8 \/ k = 9 \/ k = 10 \/ k = 11 \/ k = 12 \/ k = 13) as H by lia.
  repeat (destruct H as [-> | H]; [injection E as <-; split; [discriminate|reflexivity]|]). subst k. injection E as <-. split; [discriminate|reflexivity].
Qed.

(** Each error gets the name of its constant. *)
Theorem C64_each_name :
  map (fun e => BKStatusGetName (u32 e)) [BK_ALLOCATION_ERROR; BK_INVALID_VALUE; BK_INVALID_STATE; BK_INVALID_NUM_CHANNELS; BK_INVALID_NUM_FRAMES; BK_INVALID_NUM_BITS;
    BK_INVALID_RETURN_VALUE; BK_FILE_ERROR; BK_FILE_NOT_READABLE_ERROR; BK_FILE_NOT_WRITABLE_ERROR; BK_FILE_NOT_SEEKABLE_ERROR; BK_OTHER_ERROR] =
  map (fun s => Ok (Some s)) ["Allocation error"; "Invalid value"; "Invalid state"; "Invalid number of channels"; "Invalid number of frames"; "Invalid number of bits";
    "Invalid return value"; "File error"; "File not readable"; "File not writable"; "File not seekable"; "Other error"]%string.
Proof. reflexivity. Qed.
(** Attributes are called arguments. *)
Theorem C64_attribute_refuted : exists e, e = BK_INVALID_ATTRIBUTE /\ BKStatusGetName (u32 e) = Ok (Some "Invalid argument"%string).
Proof. eexists. split; reflexivity. Qed.

(** Which status values are looked up in the table: those with one of the bits of the type,
    up to the last error. *)
Theorem C64_lookup_partial status : is_status status ->
  (Z.land status 4294938624 = 0 \/ 4294938637 < status -> BKStatusGetName status = Ok (Some "Unknown status"%string)) /\
  (4294938624 < status <= 4294938637 -> exists name, BKStatusGetName status = Ok (Some name)) /\
  (Z.land status 4294938624 <> 0 -> status < 4294938624 -> BKStatusGetName status = Err EBounds).
Proof.
  intros S. unfold is_status in S. destruct type_bits as [T O]. unfold BKStatusGetName. rewrite T, O. split; [|split].
  - intros [H|H].
    + rewrite H. reflexivity.
    + assert (status <=? 4294938637 = false) as -> by lia. rewrite andb_false_r. reflexivity.
  - intros H. assert (exists k, 1 <= k <= 13 /\ status = 4294938624 + k) as (k & K & ->) by (exists (status - 4294938624); lia).
    assert (k = 1 \/ k = 2 \/ k = 3 \/ k = 4 \/ k = 5 \/ k = 6 \/ k = 7 \/ k = 8 \/ k = 9 \/ k = 10 \/ k = 11 \/ k = 12 \/ k = 13) as X by lia.
    repeat (destruct X as [-> | X]; [eexists; reflexivity|]). subst k. eexists. reflexivity.
  - intros B L. destruct (Z.land status 4294938624 =? 0) eqn:Z0; [lia|]. assert (status <=? 4294938637 = true) as -> by lia. cbn [negb andb].
    unfold aget. assert (1024 <= status).
    { destruct (Z_lt_ge_dec status 1024) as [X|X]; [exfalso|lia]. apply B. apply Z.bits_inj'. intros i I. rewrite Z.land_spec, Z.bits_0.
      destruct (Z_lt_ge_dec i 10) as [J|J].
      - assert (i = 0 \/ i = 1 \/ i = 2 \/ i = 3 \/ i = 4 \/ i = 5 \/ i = 6 \/ i = 7 \/ i = 8 \/ i = 9) as Y by lia.
        repeat (destruct Y as [-> | Y]; [apply andb_false_r|]). subst i. apply andb_false_r.
      - rewrite Z.bits_above_log2; [reflexivity|lia|]. destruct (Z.eq_dec status 0) as [->|NZ]; [cbn; lia|]. apply Z.log2_lt_pow2; [lia|]. apply Z.lt_le_trans with (2 ^ 10); [exact X|]. apply Z.pow_le_mono_r; lia. }
    assert (U : u32 (status - 4294938624) = status + 28672) by (unfold u32; Z.to_euclidean_division_equations; lia). rewrite U.
    change (Z.of_nat (length statusNames)) with 14. assert (status + 28672 <? 14 = false) as -> by lia. rewrite andb_false_r. reflexivity.
Qed.

Example C64_example : BKStatusGetName (u32 BK_INVALID_STATE) = Ok (Some "Invalid state"%string) /\ BKStatusGetName 0 = Ok (Some "Unknown status"%string) /\
  BKStatusGetName 4095 = Ok (Some "Unknown status"%string) /\ BKStatusGetName (u32 (-1)) = Ok (Some "Unknown status"%string).
Proof. repeat split. Qed.

(** Many other values, as 4096, are looked up behind the end of the table. *)
Theorem C64_outside_refuted : exists status, is_status status /\ BKStatusGetName status = Err EBounds.
Proof. exists 4096. split; [unfold is_status; lia|reflexivity]. Qed.
(** [BK_RETURN_TYPE] itself has no name. *)
Theorem C64_null_refuted : exists status, is_status status /\ BKStatusGetName status = Ok None.
Proof. exists (u32 BK_RETURN_TYPE). split; [unfold is_status; cbn; lia|reflexivity]. Qed.

(** * C66: bit macros *)

Lemma u32_bit z i : 0 <= i -> Z.testbit (u32 z) i = (i <? 32) && Z.testbit z i.
Proof.
  intros I. unfold u32. change 4294967296 with (2 ^ 32). destruct (i <? 32) eqn:L.
  - apply Z.mod_pow2_bits_low. lia.
  - apply Z.mod_pow2_bits_high. lia.
Qed.
Lemma high_bit v i : 0 <= v < 4294967296 -> 32 <= i -> Z.testbit v i = false.
Proof. intros V I. rewrite <- (Z.mod_small v 4294967296) by exact V. change 4294967296 with (2 ^ 32). apply Z.mod_pow2_bits_high. lia. Qed.
Lemma not32_bit v i : 0 <= i -> Z.testbit (not32 v) i = (i <? 32) && negb (Z.testbit v i).
Proof. intros I. unfold not32. rewrite u32_bit by exact I. replace (- v - 1) with (Z.lnot v) by (unfold Z.lnot; lia). rewrite Z.lnot_spec by exact I. reflexivity. Qed.

(** Bits of the mask are set or cleared, all others are kept. *)
Theorem C66_set_cond var mask cond i : 0 <= var < 4294967296 -> 0 <= mask < 4294967296 -> cond = 0 \/ cond = 1 -> 0 <= i ->
  Z.testbit (BKBitSetCond var mask cond) i = (if Z.testbit mask i then cond =? 1 else Z.testbit var i).
Proof.
  intros V M C I. unfold BKBitSetCond. rewrite Z.lxor_spec, Z.land_spec, Z.lxor_spec.
  assert (H : Z.testbit (u32 (- cond)) i = (i <? 32) && (cond =? 1)).
  { rewrite u32_bit by exact I. f_equal. destruct C as [-> | ->]; [apply Z.bits_0|apply Z.bits_m1; exact I]. }
  rewrite H. destruct (Z.testbit mask i) eqn:MI.
  - assert (i <? 32 = true) as ->. { destruct (i <? 32) eqn:L; [reflexivity|]. rewrite high_bit in MI by lia. discriminate. }
    cbn [andb]. rewrite andb_true_r. destruct (Z.testbit var i), (cond =? 1); reflexivity.
  - rewrite andb_false_r. apply xorb_false_r.
Qed.
Theorem C66_set_cond_range var mask cond : 0 <= var < 4294967296 -> 0 <= mask < 4294967296 -> cond = 0 \/ cond = 1 -> 0 <= BKBitSetCond var mask cond < 4294967296.
Proof.
  intros V M C. assert (E : BKBitSetCond var mask cond = u32 (BKBitSetCond var mask cond)).
  { apply Z.bits_inj'. intros i I. rewrite u32_bit, C66_set_cond by assumption. destruct (i <? 32) eqn:L; [reflexivity|]. rewrite !high_bit by lia. reflexivity. }
  rewrite E. unfold u32. apply Z.mod_pos_bound. lia.
Qed.

Theorem C66_set var mask i : 0 <= i -> Z.testbit (BKBitSet var mask) i = Z.testbit mask i || Z.testbit var i.
Proof. intros I. unfold BKBitSet. rewrite Z.lor_spec. apply orb_comm. Qed.
Theorem C66_unset var mask i : 0 <= var < 4294967296 -> 0 <= i -> Z.testbit (BKBitUnset var mask) i = negb (Z.testbit mask i) && Z.testbit var i.
Proof.
  intros V I. unfold BKBitUnset. rewrite Z.land_spec, not32_bit by exact I. destruct (i <? 32) eqn:L.
  - cbn [andb]. apply andb_comm.
  - rewrite (high_bit var) by lia. symmetry. apply andb_false_r.
Qed.

(** The mask if the condition holds and 0 if not. *)
Theorem C66_cond mask cond : 0 <= mask < 4294967296 ->
  (cond = 0 \/ cond = 1 -> BKBitCond mask cond = if cond =? 1 then mask else 0) /\
  BKBitCond2 mask cond = (if cond =? 0 then 0 else mask).
Proof.
  intros M. assert (ALL : Z.land 4294967295 mask = mask).
  { rewrite Z.land_comm. change 4294967295 with (Z.ones 32). rewrite Z.land_ones by lia. apply Z.mod_small. exact M. }
  split.
  - intros [-> | ->]; unfold BKBitCond; [reflexivity|exact ALL].
  - unfold BKBitCond2. destruct (cond =? 0); [reflexivity|exact ALL].
Qed.

Example C66_example : BKBitSetCond 240 60 1 = 252 /\ BKBitSetCond 240 60 0 = 192 /\ BKBitCond 60 1 = 60 /\ BKBitCond2 60 (-5) = 60.
Proof. repeat split. Qed.

(** With a mask [a | b] the condition does not count for [b]. *)
Theorem C66_mask_refuted : exists a b, BKBitCond_of_or a b 0 <> 0 /\ BKBitCond (Z.lor a b) 0 = 0.
Proof. exists 1, 2. split; [discriminate|reflexivity]. Qed.

Print Assumptions C63_no_object.
Print Assumptions C63_no_function.
Print Assumptions C63_destructor_at_most_once.
Print Assumptions C63_dispose_any_times_partial.
Print Assumptions C63_allocated_partial.
Print Assumptions C63_dispose_twice_refuted.
Print Assumptions C63_disposed_attr_refuted.
Print Assumptions C64_error_names.
Print Assumptions C64_lookup_partial.
Print Assumptions C64_outside_refuted.
Print Assumptions C64_null_refuted.
Print Assumptions C66_set_cond.
Print Assumptions C66_set_cond_range.
Print Assumptions C66_set.
Print Assumptions C66_unset.
Print Assumptions C66_cond.
Print Assumptions C66_mask_refuted.
Print Assumptions C63_dispatch.
Print Assumptions C63_init.
Print Assumptions C64_each_name.
Print Assumptions C64_attribute_refuted.
