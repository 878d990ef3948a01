(** Lemmas about the channel buffer. *)
From Verif Require Import CIntFacts Kernels BufferModel BufferSpec.
From Coq Require Import Permutation.

(** * Kernels *)
Definition kernel_okb (K : list (list Z)) : bool :=
  (Nat.eqb (length K) 32) &&
  forallb (fun row => Nat.eqb (length row) 32 && forallb in_s16 row) K.

Lemma kernel_okb_ok K : kernel_okb K = true -> kernel_ok K.
Proof.
  unfold kernel_okb, kernel_ok. intros H. apply andb_prop in H as [H1 H2].
  split. { apply Nat.eqb_eq; exact H1. }
  intros row Hr. rewrite forallb_forall in H2. specialize (H2 _ Hr).
  apply andb_prop in H2 as [H2 H3]. split. { apply Nat.eqb_eq; exact H2. }
  intros v Hv. rewrite forallb_forall in H3. specialize (H3 _ Hv).
  unfold in_s16, is_s16 in *. lia.
Qed.

Lemma kernel_ok_sinc : kernel_ok BKBufferStepPhasesSinc.
Proof. apply kernel_okb_ok. vm_compute. reflexivity. Qed.
Lemma kernel_ok_harm : kernel_ok BKBufferStepPhasesHarm.
Proof. apply kernel_okb_ok. vm_compute. reflexivity. Qed.

Ltac bsimpl := cbn [b_time b_capacity b_accum b_frames b_pulse fst snd].
Global Opaque BK_BUFFER_CAPACITY.

(** * Well-formed buffers *)
Definition buffer_ok (b : buffer) : Prop :=
  length (b_frames b) = BK_BUFFER_CAPACITY /\
  0 <= b_time b < 4294967296 /\
  0 <= b_capacity b <= 4095 /\
  kernel_ok (b_pulse b) /\
  is_s32 (b_accum b) /\
  (forall v, In v (b_frames b) -> is_s32 v).

Lemma capacity_val : Z.of_nat BK_BUFFER_CAPACITY = 4129.
Proof. vm_compute. reflexivity. Qed.

Lemma offset_range T : 0 <= T < 4294967296 -> 0 <= Z.shiftr T 20 <= 4095.
Proof. intros. rewrite shiftr_div by lia. change (2 ^ 20) with 1048576. lia. Qed.

Lemma frac_range T : 0 <= Z.shiftr (Z.land T 1048575) 15 <= 31.
Proof. rewrite land_frac, shiftr_div by lia. change (2 ^ 15) with 32768. lia. Qed.

Lemma In_upd {A} (l : list A) n a v : In v (upd l n a) -> v = a \/ In v l.
Proof.
  revert n; induction l as [|h t IH]; intros [|n]; simpl; auto; intros [H|H]; auto.
  destruct (IH _ H); auto.
Qed.

Lemma cell_In F i : 0 <= i < Z.of_nat (length F) -> In (cell F i) F.
Proof. intros. unfold cell. apply nth_In. lia. Qed.

Lemma cell_upd F i j v : 0 <= i < Z.of_nat (length F) -> 0 <= j ->
  cell (upd F (Z.to_nat i) v) j = if i =? j then v else cell F j.
Proof.
  intros H1 H2. unfold cell. destruct (Z.eqb_spec i j) as [->|N].
  - apply nth_upd_eq. lia.
  - apply nth_upd_neq. lia.
Qed.

Lemma aget_cell F i : 0 <= i < Z.of_nat (length F) -> aget F i = Ok (cell F i).
Proof. intros. unfold cell. apply aget_nth. assumption. Qed.

Lemma mul_s16 a b : is_s16 a -> is_s16 b -> -1073741824 <= a * b <= 1073741824.
Proof. unfold is_s16. nia. Qed.

(** * The pulse loop *)
Lemma add_pulse_loop_spec n : forall i phase off p F,
  length phase = 32%nat -> (forall v, In v phase -> is_s16 v) -> is_s16 p ->
  0 <= i -> i + Z.of_nat n <= 32 ->
  0 <= off -> off + 32 <= Z.of_nat (length F) ->
  (exists F', add_pulse_loop n i phase off p F = Ok F' /\
     length F' = length F /\
     (forall v, In v F' -> In v F \/ is_s32 v) /\
     forall j, 0 <= j -> cell F' j = cell F j +
       (if (off + i <=? j) && (j <? off + i + Z.of_nat n) then cell phase (j - off) * p else 0))
  \/ (add_pulse_loop n i phase off p F = Err EOverflow /\
      exists j, off + i <= j < off + i + Z.of_nat n /\
                ~ is_s32 (cell F j + cell phase (j - off) * p)).
Proof.
  induction n as [|n IH]; intros i phase off p F Hl Hv Hp Hi Hn Ho HF.
  - left. exists F. cbn [add_pulse_loop]. repeat split; auto.
    intros j Hj. replace ((off + i <=? j) && (j <? off + i + Z.of_nat 0)) with false by lia. lia.
  - cbn [add_pulse_loop].
    rewrite (aget_cell phase i) by lia. cbn [bind].
    assert (Hc : is_s16 (cell phase i)) by (apply Hv, cell_In; lia).
    assert (Hm := mul_s16 _ _ Hc Hp).
    rewrite chk32_ok by lia. cbn [bind].
    rewrite (aget_cell F (off + i)) by lia. cbn [bind].
    destruct (chk32 (cell F (off + i) + cell phase i * p)) as [v|e] eqn:E; cbn [bind].
    + apply chk32_inv in E as [-> E].
      rewrite aset_ok by lia. cbn [bind].
      destruct (IH (i + 1) phase off p (upd F (Z.to_nat (off + i)) (cell F (off + i) + cell phase i * p)))
        as [(F' & E1 & E2 & E3 & E4)|(E1 & j & E2 & E3)]; auto; try lia.
      { rewrite upd_length. lia. }
      * left. exists F'. rewrite upd_length in E2. repeat split; auto.
        { intros w Hw. destruct (E3 _ Hw) as [K|K]; auto.
          apply In_upd in K as [->|K]; auto. }
        intros j Hj. rewrite E4, cell_upd by lia.
        destruct (Z.eqb_spec (off + i) j) as [<-|N].
        -- replace ((off + (i + 1) <=? off + i) && (off + i <? off + (i + 1) + Z.of_nat n)) with false by lia.
           replace ((off + i <=? off + i) && (off + i <? off + i + Z.of_nat (S n))) with true by lia.
           replace (off + i - off) with i by lia. lia.
        -- replace ((off + (i + 1) <=? j) && (j <? off + (i + 1) + Z.of_nat n))
             with ((off + i <=? j) && (j <? off + i + Z.of_nat (S n))) by lia. lia.
      * right. split; [exact E1|]. exists j. split; [lia|].
        rewrite cell_upd in E3 by lia. replace (off + i =? j) with false in E3 by lia. exact E3.
    + right. apply chk32_err in E as He. subst e. split; [reflexivity|].
      exists (off + i). split; [lia|]. replace (off + i - off) with i by lia.
      intros K. unfold is_s32 in K. rewrite chk32_ok in E by lia. discriminate.
Qed.

Lemma kernel_row K f : kernel_ok K -> 0 <= f <= 31 ->
  aget K f = Ok (nth (Z.to_nat f) K []) /\
  length (nth (Z.to_nat f) K []) = 32%nat /\ (forall v, In v (nth (Z.to_nat f) K []) -> is_s16 v).
Proof.
  intros [H1 H2] Hf. assert (Hl : (Z.to_nat f < length K)%nat) by lia.
  destruct (H2 _ (nth_In K [] Hl)) as [H3 H4].
  split; [apply aget_nth; lia|]. auto.
Qed.

Lemma frac_eq T : Z.shiftr (Z.land T BK_FINT20_FRAC) (BK_FINT20_SHIFT - BK_STEP_SHIFT)
                  = T mod 1048576 / 32768.
Proof.
  unfold BK_FINT20_FRAC, BK_FINT20_SHIFT, BK_STEP_SHIFT. change (20 - 5) with 15.
  rewrite land_frac, shiftr_div by lia. reflexivity.
Qed.

Lemma off_eq T : Z.shiftr T BK_FINT20_SHIFT = T / 1048576.
Proof. unfold BK_FINT20_SHIFT. rewrite shiftr_div by lia. reflexivity. Qed.

Definition with_frames (b : buffer) (F : list Z) : buffer :=
  mk_buffer (b_time b) (b_capacity b) (b_accum b) F (b_pulse b).

(** Full characterisation of [BKBufferAddPulse]. *)
Lemma add_pulse_spec b t p :
  buffer_ok b ->
  let T := u32 (b_time b + t) in
  (exists F', BKBufferAddPulse b t p = Ok (with_frames b F') /\
     length F' = length (b_frames b) /\
     (forall v, In v F' -> is_s32 v) /\
     forall j, 0 <= j -> cell F' j = cell (b_frames b) j + pulse_at (b_pulse b) T (s16 p) j)
  \/ (BKBufferAddPulse b t p = Err EOverflow /\
      exists j, 0 <= j < 4129 /\
      ~ is_s32 (cell (b_frames b) j + pulse_at (b_pulse b) T (s16 p) j)).
Proof.
  intros (H1 & H2 & H3 & H4 & H5 & H6) T.
  pose proof capacity_val as Hcap.
  assert (HT : 0 <= T < 4294967296) by apply u32_range.
  assert (Ho := offset_range T HT).
  assert (Hf : 0 <= T mod 1048576 / 32768 <= 31) by lia.
  destruct (kernel_row _ _ H4 Hf) as (K1 & K2 & K3).
  assert (Hp : is_s16 (s16 p)) by apply s16_range.
  unfold BKBufferAddPulse. fold T.
  rewrite frac_eq, K1. cbn [bind].
  rewrite off_eq. rewrite shiftr_div in Ho by lia. change (2 ^ 20) with 1048576 in Ho.
  set (row := nth (Z.to_nat (T mod 1048576 / 32768)) (b_pulse b) []) in *.
  change (Z.to_nat BK_STEP_WIDTH) with 32%nat.
  destruct (add_pulse_loop_spec 32 0 row (T / 1048576) (s16 p) (b_frames b))
    as [(F' & E1 & E2 & E3 & E4)|(E1 & j & E2 & E3)]; auto; try lia.
  - left. exists F'. rewrite E1. cbn [bind]. split; [reflexivity|]. split; [exact E2|]. split.
    { intros v Hv. destruct (E3 _ Hv); auto; apply H6; assumption. }
    intros j Hj. rewrite E4 by lia. unfold pulse_at. fold row.
    change (Z.of_nat 32) with 32. rewrite Z.add_0_r. reflexivity.
  - right. rewrite E1. cbn [bind]. split; [reflexivity|].
    exists j. change (Z.of_nat 32) with 32 in E2. split; [lia|].
    unfold pulse_at. fold row.
    replace ((T / 1048576 <=? j) && (j <? T / 1048576 + 32)) with true by lia. exact E3.
Qed.

Lemma add_pulse_ok b t p b' : buffer_ok b -> BKBufferAddPulse b t p = Ok b' -> buffer_ok b'.
Proof.
  intros H E. destruct (add_pulse_spec b t p H) as [(F' & E1 & E2 & E3 & _)|(E1 & _)];
    rewrite E1 in E; inversion E; subst.
  destruct H as (H1 & H2 & H3 & H4 & H5 & H6).
  unfold buffer_ok, with_frames; bsimpl. rewrite E2. tauto.
Qed.

Lemma add_frame_spec b t p :
  buffer_ok b ->
  let o := u32 (b_time b + t) / 1048576 in
  (exists F', BKBufferAddFrame b t p = Ok (with_frames b F') /\
     length F' = length (b_frames b) /\
     (forall v, In v F' -> is_s32 v) /\
     forall j, 0 <= j -> cell F' j = cell (b_frames b) j + (if j =? o then 32767 * s16 p else 0))
  \/ (BKBufferAddFrame b t p = Err EOverflow /\ ~ is_s32 (cell (b_frames b) o + 32767 * s16 p)).
Proof.
  intros (H1 & H2 & H3 & H4 & H5 & H6) o.
  pose proof capacity_val as Hcap.
  assert (HT : 0 <= u32 (b_time b + t) < 4294967296) by apply u32_range.
  assert (Ho : 0 <= o <= 4095) by (unfold o; lia).
  unfold BKBufferAddFrame. rewrite off_eq. fold o.
  assert (Hp : is_s16 (s16 p)) by apply s16_range.
  unfold is_s16 in Hp. unfold BK_MAX_VOLUME.
  rewrite chk32_ok by lia. cbn [bind].
  rewrite aget_cell by lia. cbn [bind].
  destruct (chk32 (cell (b_frames b) o + 32767 * s16 p)) as [v|e] eqn:E; cbn [bind].
  - apply chk32_inv in E as [-> E]. rewrite aset_ok by lia. cbn [bind].
    left. eexists. split; [reflexivity|]. rewrite upd_length. split; [reflexivity|]. split.
    { intros v Hv. apply In_upd in Hv as [->|Hv]; auto. }
    intros j Hj. rewrite cell_upd by lia. destruct (Z.eqb_spec o j) as [<-|N].
    + rewrite Z.eqb_refl. reflexivity.
    + replace (j =? o) with false by lia. lia.
  - right. apply chk32_err in E as He. subst e. split; [reflexivity|].
    intros K. unfold is_s32 in K. rewrite chk32_ok in E by lia. discriminate.
Qed.

Lemma add_frame_ok b t p b' : buffer_ok b -> BKBufferAddFrame b t p = Ok b' -> buffer_ok b'.
Proof.
  intros H E. destruct (add_frame_spec b t p H) as [(F' & E1 & E2 & E3 & _)|(E1 & _)];
    rewrite E1 in E; inversion E; subst.
  destruct H as (H1 & H2 & H3 & H4 & H5 & H6).
  unfold buffer_ok, with_frames; bsimpl. rewrite E2. tauto.
Qed.

(** * Reading *)
Lemma read_loop_app l1 l2 a :
  read_loop (l1 ++ l2) a =
  let* r1 := read_loop l1 a in
  let* r2 := read_loop l2 (fst r1) in
  Ok (fst r2, snd r1 ++ snd r2).
Proof.
  revert a; induction l1 as [|x l1 IH]; intros a; cbn [app read_loop].
  - cbn [bind fst snd app]. destruct (read_loop l2 a) as [[a2 s2]|e]; reflexivity.
  - destruct (chk32 (a - Z.shiftr a (32 - 23))) as [a1|e]; cbn [bind]; [|reflexivity].
    destruct (chk32 (a1 + x)) as [a2|e]; cbn [bind]; [|reflexivity].
    rewrite IH. destruct (read_loop l1 a2) as [[a3 s3]|e]; cbn [bind fst snd]; [|reflexivity].
    destruct (read_loop l2 a3) as [[a4 s4]|e]; cbn [bind fst snd]; reflexivity.
Qed.

Lemma last_cons (l : list Z) : forall x a, last (x :: l) a = last l x.
Proof.
  induction l as [|y l IH]; intros x a; [reflexivity|].
  change (last (x :: y :: l) a) with (last (y :: l) a). rewrite !IH. reflexivity.
Qed.

Lemma decay_range a : is_s32 a -> is_s32 (a - a / 512).
Proof. unfold is_s32. lia. Qed.

Lemma read_loop_spec l : forall a, is_s32 a ->
  (exists a', read_loop l a = Ok (a', map out_sample (integrate a l)) /\
              a' = integrate_end a l /\ is_s32 a' /\ Forall is_s32 (integrate a l))
  \/ (read_loop l a = Err EOverflow /\ ~ Forall is_s32 (integrate a l)).
Proof.
  induction l as [|x l IH]; intros a Ha; cbn [read_loop integrate map].
  - left. exists a. repeat split; auto; apply Ha.
  - rewrite shiftr_div by lia. change (2 ^ (32 - 23)) with 512.
    rewrite chk32_ok by (apply decay_range; exact Ha). cbn [bind].
    destruct (chk32 (a - a / 512 + x)) as [v|e] eqn:E; cbn [bind].
    + apply chk32_inv in E as [-> E].
      destruct (IH _ E) as [(a' & E1 & E2 & E3 & E4)|(E1 & E2)]; rewrite E1; cbn [bind fst snd].
      * left. exists a'. split; [reflexivity|]. repeat split; try apply E3.
        { rewrite E2. unfold integrate_end. cbn [integrate]. symmetry. apply last_cons. }
        constructor; assumption.
      * right. split; [reflexivity|]. intros K. apply E2. inversion K; assumption.
    + right. apply chk32_err in E as He. subst e. split; [reflexivity|].
      intros K. inversion K as [|y l0 K1 K2]. unfold is_s32 in K1.
      rewrite chk32_ok in E by lia. discriminate.
Qed.

Lemma firstn_add {A} (l : list A) n m :
  firstn (n + m) l = firstn n l ++ firstn m (skipn n l).
Proof. revert l; induction n; intros [|h t]; simpl; auto; [now rewrite firstn_nil|]. now rewrite IHn. Qed.

(** Explicit result of a read of a well-formed buffer. *)
Definition read_frames (F : list Z) (size cap : Z) : list Z :=
  firstn (Z.to_nat (cap + 33 - size)) (skipn (Z.to_nat size) F)
  ++ repeat 0 (Z.to_nat size) ++ skipn (Z.to_nat (cap + 33)) F.

Lemma read_unfold b n : buffer_ok b -> 0 <= n ->
  BKBufferRead b n =
  let size := BKMin n (b_capacity b) in
  let* r := read_loop (firstn (Z.to_nat size) (b_frames b)) (b_accum b) in
  Ok (mk_buffer (u32 (b_time b - size * 1048576)) (b_capacity b - size) (fst r)
        (read_frames (b_frames b) size (b_capacity b)) (b_pulse b), snd r).
Proof.
  intros (H1 & H2 & H3 & H4 & H5 & H6) Hn. pose proof capacity_val as Hc.
  unfold BKBufferRead. cbv zeta.
  set (size := BKMin n (b_capacity b)).
  assert (Hs : 0 <= size <= b_capacity b) by (unfold size, BKMin; destruct (n <? b_capacity b) eqn:?; lia).
  replace (size >? Z.of_nat (length (b_frames b))) with false by lia.
  destruct (read_loop _ _) as [[a s]|e]; cbn [bind fst snd]; [|reflexivity].
  unfold BK_STEP_WIDTH. replace (b_capacity b + 32 + 1) with (b_capacity b + 33) by lia.
  rewrite (u32_id (b_capacity b + 33)) by lia.
  replace (b_capacity b + 33 >? Z.of_nat (length (b_frames b))) with false by lia.
  unfold BK_FINT20_SHIFT. rewrite Z.shiftl_mul_pow2 by lia. change (2 ^ 20) with 1048576.
  rewrite (u32_id (size * 1048576)) by lia.
  rewrite (u32_id (b_capacity b - size)) by lia.
  reflexivity.
Qed.

Lemma read_frames_length F size cap :
  length F = BK_BUFFER_CAPACITY -> 0 <= size <= cap -> cap <= 4095 ->
  length (read_frames F size cap) = BK_BUFFER_CAPACITY.
Proof.
  intros H1 H2 H3. pose proof capacity_val. unfold read_frames.
  rewrite !app_length, firstn_length, !skipn_length, repeat_length. lia.
Qed.

Lemma cell_read_frames F size cap j :
  length F = BK_BUFFER_CAPACITY -> 0 <= size <= cap -> cap <= 4095 -> 0 <= j ->
  cell (read_frames F size cap) j =
  if j <? cap + 33 - size then cell F (j + size)
  else if j <? cap + 33 then 0 else cell F j.
Proof.
  intros H1 H2 H3 H4. pose proof capacity_val. unfold read_frames, cell.
  destruct (j <? cap + 33 - size) eqn:E1.
  - rewrite app_nth1 by (rewrite firstn_length, skipn_length; lia).
    rewrite nth_firstn_lt by lia. rewrite nth_skipn. f_equal. lia.
  - rewrite app_nth2 by (rewrite firstn_length, skipn_length; lia).
    rewrite firstn_length, skipn_length.
    destruct (j <? cap + 33) eqn:E2.
    + rewrite app_nth1 by (rewrite repeat_length; lia).
      rewrite nth_repeat_any. destruct (Nat.ltb _ _); reflexivity.
    + rewrite app_nth2 by (rewrite repeat_length; lia).
      rewrite repeat_length, nth_skipn. f_equal. lia.
Qed.

Lemma In_read_frames F size cap v :
  In v (read_frames F size cap) -> v = 0 \/ In v F.
Proof.
  unfold read_frames. rewrite !in_app_iff. intros [H|[H|H]].
  - right. rewrite <- (firstn_skipn (Z.to_nat size) F). apply in_or_app. right.
    rewrite <- (firstn_skipn (Z.to_nat (cap + 33 - size)) (skipn _ F)).
    apply in_or_app. left. exact H.
  - left. apply repeat_spec in H. exact H.
  - right. rewrite <- (firstn_skipn (Z.to_nat (cap + 33)) F). apply in_or_app. right. exact H.
Qed.

Lemma read_ok b n b' s : buffer_ok b -> 0 <= n -> BKBufferRead b n = Ok (b', s) -> buffer_ok b'.
Proof.
  intros H Hn E. rewrite read_unfold in E by assumption. cbv zeta in E.
  destruct H as (H1 & H2 & H3 & H4 & H5 & H6).
  set (size := BKMin n (b_capacity b)) in *.
  assert (Hs : 0 <= size <= b_capacity b) by (unfold size, BKMin; destruct (n <? b_capacity b) eqn:?; lia).
  destruct (read_loop_spec (firstn (Z.to_nat size) (b_frames b)) _ H5)
    as [(a' & E1 & E2 & E3 & _)|(E1 & _)]; rewrite E1 in E; cbn [bind fst snd] in E; inversion E; subst b'.
  unfold buffer_ok; bsimpl. split; [apply read_frames_length; lia|].
  split; [apply u32_range|]. split; [lia|]. split; [exact H4|]. split; [exact E3|].
  intros v Hv. destruct (In_read_frames _ _ _ _ Hv) as [->|K]; [unfold is_s32; lia|]. apply (H6 _ K).
Qed.

Lemma read_err b n e : buffer_ok b -> 0 <= n -> BKBufferRead b n = Err e -> e = EOverflow.
Proof.
  intros H Hn E. rewrite read_unfold in E by assumption. cbv zeta in E.
  destruct H as (H1 & H2 & H3 & H4 & H5 & H6).
  destruct (read_loop_spec (firstn (Z.to_nat (BKMin n (b_capacity b))) (b_frames b)) _ H5)
    as [(a' & E1 & _)|(E1 & _)]; rewrite E1 in E; cbn [bind fst snd] in E; congruence.
Qed.

(** * All histories *)
Lemma init_ok : buffer_ok BKBufferInit.
Proof.
  unfold buffer_ok, BKBufferInit; cbn [b_frames b_time b_capacity b_pulse b_accum].
  split; [apply repeat_length|]. split; [lia|]. split; [lia|].
  split; [apply kernel_ok_harm|]. split; [unfold is_s32; lia|].
  intros v Hv. apply repeat_spec in Hv. unfold is_s32. lia.
Qed.

Lemma clear_ok b : buffer_ok b -> buffer_ok (BKBufferClear b).
Proof.
  intros (_ & _ & _ & H & _).
  unfold buffer_ok, BKBufferClear; cbn [b_frames b_time b_capacity b_pulse b_accum].
  split; [apply repeat_length|]. split; [lia|]. split; [lia|].
  split; [exact H|]. split; [unfold is_s32; lia|].
  intros v Hv. apply repeat_spec in Hv. unfold is_s32. lia.
Qed.

Lemma end_ok b t : buffer_ok b -> buffer_ok (BKBufferEnd b t).
Proof.
  intros (H1 & H2 & H3 & H4 & H5 & H6). unfold buffer_ok, BKBufferEnd; bsimpl.
  assert (K := offset_range _ (u32_range (b_time b + t))). unfold BK_FINT20_SHIFT.
  split; [exact H1|]. split; [exact H2|]. split; [|tauto].
  destruct (Z.shiftr (u32 (b_time b + t)) 20 >? b_capacity b); lia.
Qed.

Lemma shift_ok b t : buffer_ok b -> buffer_ok (BKBufferShift b t).
Proof.
  intros (H1 & H2 & H3 & H4 & H5 & H6). unfold buffer_ok, BKBufferShift; bsimpl.
  split; [exact H1|]. split; [|tauto]. apply u32_range.
Qed.

Lemma bstep_ok b o r : buffer_ok b -> bstep b o = Ok r -> buffer_ok (fst r).
Proof.
  intros H E. destruct o; cbn [bstep] in E.
  - apply bind_ok in E as (b' & E1 & E2). inversion E2; subst. simpl. eapply add_pulse_ok; eauto.
  - apply bind_ok in E as (b' & E1 & E2). inversion E2; subst. simpl. eapply add_frame_ok; eauto.
  - inversion E; subst. apply end_ok; exact H.
  - inversion E; subst. apply shift_ok; exact H.
  - destruct r as [b' s]. eapply read_ok; eauto. apply u32_range.
  - inversion E; subst. apply clear_ok; exact H.
  - inversion E; subst. destruct H as (H1 & H2 & H3 & H4 & H5 & H6).
    unfold buffer_ok; bsimpl. split; [exact H1|]. split; [exact H2|]. split; [exact H3|].
    split; [|split; [exact H5|exact H6]].
    destruct k; [apply kernel_ok_harm | apply kernel_ok_sinc].
Qed.

Lemma bstep_err b o e : buffer_ok b -> bstep b o = Err e -> e = EOverflow.
Proof.
  intros H E. destruct o; cbn [bstep] in E; try discriminate.
  - destruct (add_pulse_spec b (u32 time) pulse H) as [(F' & E1 & _)|(E1 & _)];
      rewrite E1 in E; cbn [bind] in E; congruence.
  - destruct (add_frame_spec b (u32 time) frame H) as [(F' & E1 & _)|(E1 & _)];
      rewrite E1 in E; cbn [bind] in E; congruence.
  - eapply read_err; eauto. apply u32_range.
Qed.

Lemma bruns_ok ops : forall b r, buffer_ok b -> bruns b ops = Ok r -> buffer_ok (fst r).
Proof.
  induction ops as [|o ops IH]; intros b r H E; cbn [bruns] in E.
  - inversion E; subst. exact H.
  - apply bind_ok in E as (r1 & E1 & E). apply bind_ok in E as (r2 & E2 & E).
    inversion E; subst. simpl. eapply IH; [|exact E2]. eapply bstep_ok; eauto.
Qed.

Lemma bruns_err ops : forall b e, buffer_ok b -> bruns b ops = Err e -> e = EOverflow.
Proof.
  induction ops as [|o ops IH]; intros b e H E; cbn [bruns] in E; [discriminate|].
  destruct (bstep b o) as [r1|e1] eqn:E1; cbn [bind] in E.
  - destruct (bruns (fst r1) ops) as [r2|e2] eqn:E2; cbn [bind] in E; [discriminate|].
    inversion E; subst. eapply IH; [|exact E2]. eapply bstep_ok; eauto.
  - inversion E; subst. eapply bstep_err; eauto.
Qed.
