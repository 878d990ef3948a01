(** Facts about the C integer helpers. *)
From Verif Require Export CInt.
From Coq Require Export ZifyBool.
Ltac Zify.zify_post_hook ::= Z.div_mod_to_equations.

Lemma u32_range z : 0 <= u32 z < 4294967296.
Proof. unfold u32. lia. Qed.

Lemma u32_id z : 0 <= z < 4294967296 -> u32 z = z.
Proof. unfold u32. intros. rewrite Z.mod_small; lia. Qed.

Lemma s32_range z : -2147483648 <= s32 z <= 2147483647.
Proof. unfold s32. lia. Qed.

Lemma s32_id z : -2147483648 <= z <= 2147483647 -> s32 z = z.
Proof. unfold s32. lia. Qed.

Lemma s16_range z : -32768 <= s16 z <= 32767.
Proof. unfold s16. lia. Qed.

Lemma s16_id z : -32768 <= z <= 32767 -> s16 z = z.
Proof. unfold s16. lia. Qed.

Lemma in_s32_spec z : in_s32 z = true <-> -2147483648 <= z <= 2147483647.
Proof. unfold in_s32. lia. Qed.

Lemma chk32_ok z : -2147483648 <= z <= 2147483647 -> chk32 z = Ok z.
Proof. unfold chk32. intros H. apply in_s32_spec in H. rewrite H. reflexivity. Qed.

Lemma chk32_inv z v : chk32 z = Ok v -> v = z /\ -2147483648 <= z <= 2147483647.
Proof.
  unfold chk32. destruct (in_s32 z) eqn:E; intros H; inversion H; subst.
  split; [reflexivity|]. apply in_s32_spec; exact E.
Qed.

Lemma chk32_err z e : chk32 z = Err e -> e = EOverflow.
Proof. unfold chk32. destruct (in_s32 z); intros H; inversion H; reflexivity. Qed.

Lemma bind_ok {A B} (r : res A) (f : A -> res B) b :
  bind r f = Ok b <-> exists a, r = Ok a /\ f a = Ok b.
Proof.
  destruct r; simpl; split.
  - intros H; exists a; auto.
  - intros (a' & H & K); inversion H; subst; exact K.
  - discriminate.
  - intros (a' & H & K); discriminate.
Qed.

Lemma shiftr_div z n : 0 <= n -> Z.shiftr z n = z / 2 ^ n.
Proof. intros. apply Z.shiftr_div_pow2; assumption. Qed.

Lemma upd_length {A} (l : list A) n a : length (upd l n a) = length l.
Proof. revert n; induction l as [|h t IH]; intros [|n]; simpl; auto. Qed.

Lemma nth_error_upd {A} (l : list A) n m a :
  nth_error (upd l n a) m =
  if Nat.eqb n m then (if Nat.ltb m (length l) then Some a else None)
  else nth_error l m.
Proof.
  revert n m; induction l as [|h t IH]; intros [|n] [|m]; simpl; auto.
  - destruct (Nat.eqb n m); reflexivity.
  - rewrite IH. destruct (Nat.eqb n m); [|reflexivity].
    change (Nat.ltb (S m) (S (length t))) with (Nat.ltb m (length t)). reflexivity.
Qed.

Lemma nth_upd_eq (l : list Z) n a d : (n < length l)%nat -> nth n (upd l n a) d = a.
Proof.
  revert n; induction l as [|h t IH]; intros [|n] H; simpl in *; try lia; auto.
  apply IH; lia.
Qed.

Lemma nth_upd_neq (l : list Z) n m a d : n <> m -> nth m (upd l n a) d = nth m l d.
Proof.
  revert n m; induction l as [|h t IH]; intros [|n] [|m] H; simpl in *; try lia; auto.
Qed.

Lemma aget_nth {A} (l : list A) i d :
  0 <= i < Z.of_nat (length l) -> aget l i = Ok (nth (Z.to_nat i) l d).
Proof.
  intros H. unfold aget.
  replace ((0 <=? i) && (i <? Z.of_nat (length l))) with true by lia.
  destruct (nth_error l (Z.to_nat i)) eqn:E.
  - apply nth_error_nth with (d := d) in E. rewrite E. reflexivity.
  - apply nth_error_None in E. lia.
Qed.

Lemma aget_bounds {A} (l : list A) i a : aget l i = Ok a -> 0 <= i < Z.of_nat (length l).
Proof.
  unfold aget. destruct ((0 <=? i) && (i <? Z.of_nat (length l))) eqn:E; [lia|discriminate].
Qed.

Lemma aget_err {A} (l : list A) i e : aget l i = Err e -> e = EBounds.
Proof.
  unfold aget. destruct ((0 <=? i) && (i <? Z.of_nat (length l))); [|congruence].
  destruct (nth_error l (Z.to_nat i)); congruence.
Qed.

Lemma aset_ok {A} (l : list A) i a :
  0 <= i < Z.of_nat (length l) -> aset l i a = Ok (upd l (Z.to_nat i) a).
Proof.
  intros H. unfold aset.
  replace ((0 <=? i) && (i <? Z.of_nat (length l))) with true by lia. reflexivity.
Qed.

Lemma nth_firstn_lt {A} (l : list A) n i d : (i < n)%nat -> nth i (firstn n l) d = nth i l d.
Proof.
  revert n i; induction l as [|h t IH]; intros [|n] [|i] H; simpl; try lia; auto.
  apply IH; lia.
Qed.

Lemma nth_skipn {A} (l : list A) n i d : nth i (skipn n l) d = nth (n + i) l d.
Proof.
  revert n i; induction l as [|h t IH]; intros [|n] i; simpl; auto.
  destruct i; reflexivity.
Qed.

Lemma nth_repeat_any {A} (a : A) n i d : nth i (repeat a n) d = if Nat.ltb i n then a else d.
Proof.
  revert i; induction n as [|n IH]; intros [|i]; simpl; auto.
  rewrite IH. reflexivity.
Qed.

Lemma list_eq_nth (l l' : list Z) :
  length l = length l' -> (forall i, nth i l 0 = nth i l' 0) -> l = l'.
Proof.
  intros H1 H2. apply nth_ext with (d := 0) (d' := 0); auto.
Qed.

Lemma land_ones_mod z n : 0 <= n -> Z.land z (Z.ones n) = z mod 2 ^ n.
Proof. intros. apply Z.land_ones; assumption. Qed.

Lemma land_frac z : Z.land z 1048575 = z mod 1048576.
Proof. change 1048575 with (Z.ones 20). rewrite Z.land_ones by lia. reflexivity. Qed.
