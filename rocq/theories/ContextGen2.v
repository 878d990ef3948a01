(** [BKContextGenerate]: calls of any size. *)
From Verif Require Import CInt CIntFacts TimeModel Kernels BufferModel BufferSpec BufferProofs BufferProofs2 UnitModel TrackModel TrackTime UnitShift
  ContextModel ContextSame ContextShift ContextRun ContextChunk ContextGen.
Ltac Zify.zify_post_hook ::= idtac.

(** ** Joining frames *)

Lemma join_nil_r a : join a [] = a.
Proof. destruct a; reflexivity. Qed.
Lemma join_assoc a b c : join a (join b c) = join (join a b) c.
Proof.
  revert b c. induction a as [|x a IH]; intros [|y b] [|z c]; try reflexivity.
  cbn [join]. rewrite IH, app_assoc. reflexivity.
Qed.
Lemma join_repeat l : join (repeat [] (length l)) l = l.
Proof. induction l as [|x l IH]; [reflexivity|]. cbn. rewrite IH. reflexivity. Qed.
Lemma join_repeat_r l : join l (repeat [] (length l)) = l.
Proof. induction l as [|x l IH]; [reflexivity|]. cbn. rewrite IH, app_nil_r. reflexivity. Qed.

(** ** More iterations do not matter *)

Lemma end_more n e fuel c t c' k : BKContextEnd n e fuel c t = Ok c' -> BKContextEnd (n + k) e fuel c t = Ok c'.
Proof.
  unfold BKContextEnd, BKContextRun. intros E. binv E c1 E1. destruct (cx_clocks c) eqn:CK; [rewrite E1; exact E|].
  binv E1 r E2. rewrite (run_loop_more _ _ _ _ _ _ _ k E2). cbn [bind]. rewrite E1. exact E.
Qed.

Lemma chunk_more n e fuel c k r j : chunk n e fuel c k = Ok r -> chunk (n + j) e fuel c k = Ok r.
Proof. unfold chunk. intros E. binv E c1 E1. rewrite (end_more _ _ _ _ _ _ j E1). exact E. Qed.

Lemma generate_chunk m n e fuel c rem w : generate_loop (S m) n e fuel c rem w =
  let k := if rem >? BK_MAX_GENERATE_SAMPLES then BK_MAX_GENERATE_SAMPLES else rem in
  let* (c, k, l) := chunk n e fuel c k in
  let w := u32 (w + k) in
  let k := if k =? 0 then rem else k in
  let rem := u32 (rem - k) in
  if negb (rem =? 0) then let* (c, w, l') := generate_loop m n e fuel c rem w in Ok (c, w, join l l') else Ok (c, w, l).
Proof. cbn [generate_loop]. cbv zeta. unfold chunk. destruct (BKContextEnd _ _ _ _ _); reflexivity. Qed.

Lemma generate_more m : forall n e fuel c rem w r j, generate_loop m n e fuel c rem w = Ok r -> generate_loop m (n + j) e fuel c rem w = Ok r.
Proof.
  induction m as [|m IH]; intros n e fuel c rem w r j E; [discriminate|]. rewrite generate_chunk in *. cbv zeta in *.
  binv E x E1. destruct x as [[c1 k] l]. rewrite (chunk_more _ _ _ _ _ _ j E1). cbn [bind]. destruct (negb _); [|exact E].
  binv E x E2. rewrite (IH _ _ _ _ _ _ _ j E2). exact E.
Qed.

(** ** Frame by frame *)

Inductive ones (e : env) (fuel : nat) : nat -> context -> context -> list (list Z) -> Prop :=
| ones_0 c : ones e fuel 0 c c (repeat [] (length (cx_channels c)))
| ones_S n N c c1 c2 l1 l2 : chunk N e fuel c 1 = Ok (c1, 1, l1) -> ones e fuel n c1 c2 l2 -> ones e fuel (S n) c c2 (join l1 l2).

Lemma rels_0 chs : Forall fine chs -> rels 0 (repeat [] (length chs)) chs chs.
Proof.
  induction 1 as [|b chs (F1 & F2 & F3) F IH]; [constructor|]. cbn [length repeat]. constructor; [|exact IH].
  unfold rel. split; [exact F1|]. split; [exact F1|]. split; [exact F2|]. split; [exact F2|]. split; [lia|]. split; [reflexivity|]. split; [|reflexivity].
  intros i _. rewrite Z.add_0_r. reflexivity.
Qed.

Lemma late_0 c : late 0 (cx_delta c) (cx_channels c) c = c.
Proof. unfold late. rewrite shs_0. destruct c; reflexivity. Qed.

Section Generate.
Variable e : env.
Variable fuel : nat.
Hypothesis P : env_plain e.

Lemma chunk_0 N c : ready c -> cx_tracks c <> [] -> chunk N e fuel c 0 = Ok (c, 0, repeat [] (length (cx_channels c))).
Proof.
  intros R NT. apply (chunk_spec e fuel c 0 P R NT ltac:(lia)). split; [reflexivity|]. exists (cx_channels c). split; [|apply rels_0, R].
  change (0 * 1048576) with 0. rewrite late_0, Z.add_0_r. destruct R as [_ _ R3 _ _ _ _].
  destruct N; cbn [run_loop]; destruct (Z.ltb_spec (cx_delta c) 0); (lia || reflexivity).
Qed.

(** A context that can generate. *)
Definition able (c : context) : Prop := ready c /\ cx_tracks c <> [].

Lemma chunk_able c k N c' n ss : able c -> 0 <= k <= 1024 -> chunk N e fuel c k = Ok (c', n, ss) ->
  able c' /\ n = k /\ length ss = length (cx_channels c) /\ length (cx_channels c') = length (cx_channels c).
Proof.
  intros [R NT] K E. destruct (chunk_ready e fuel c k N c' n ss P R NT K E) as (H1 & H2 & H3 & _ & H4 & H5 & _).
  split; [split; [exact H1|apply (fst_nil (cx_tracks c)); assumption]|]. auto.
Qed.

Lemma ones_able n c c' l : ones e fuel n c c' l -> able c ->
  able c' /\ length l = length (cx_channels c) /\ length (cx_channels c') = length (cx_channels c) /\ Forall (fun s => length s = n) l.
Proof.
  induction 1 as [c|n N c c1 c2 l1 l2 C O IH]; intros A.
  - split; [exact A|]. split; [apply repeat_length|]. split; [reflexivity|]. apply Forall_forall. intros x Hx. apply repeat_spec in Hx. subst. reflexivity.
  - destruct A as [R NT]. destruct (chunk_ready e fuel c 1 N c1 1 l1 P R NT ltac:(lia) C) as (_ & _ & _ & H6 & _).
    destruct (chunk_able _ 1 _ _ _ _ (conj R NT) ltac:(lia) C) as (A1 & _ & H3 & H4). destruct (IH A1) as (I1 & I2 & I3 & I4).
    split; [exact I1|]. destruct (join_even l1 l2 1 n ltac:(congruence)) as [J1 J2]; [|exact I4|].
    { eapply Forall_impl; [|exact H6]. cbn. intros. lia. }
    split; [congruence|]. split; [congruence|]. exact J1.
Qed.

Lemma ones_app a b c c2 l : able c ->
  (ones e fuel (a + b) c c2 l <-> exists c1 l1 l2, ones e fuel a c c1 l1 /\ ones e fuel b c1 c2 l2 /\ l = join l1 l2).
Proof.
  revert c l. induction a as [|a IH]; intros c l A.
  - cbn [Nat.add]. split.
    + intros O. exists c, (repeat [] (length (cx_channels c))), l. split; [constructor|]. split; [exact O|].
      destruct (ones_able _ _ _ _ O A) as (_ & <- & _). symmetry. apply join_repeat.
    + intros (c1 & l1 & l2 & O1 & O2 & ->). inversion O1; subst. destruct (ones_able _ _ _ _ O2 A) as (_ & <- & _). rewrite join_repeat. exact O2.
  - cbn [Nat.add]. split.
    + intros O. inversion O as [|n N c0 c1 c0' l1 l2 C O1]; subst. destruct (chunk_able _ 1 _ _ _ _ A ltac:(lia) C) as (A1 & _).
      apply (IH _ _ A1) in O1. destruct O1 as (c3 & l3 & l4 & O3 & O4 & ->). exists c3, (join l1 l3), l4. split; [econstructor; eassumption|]. split; [exact O4|].
      apply join_assoc.
    + intros (c1 & l1 & l2 & O1 & O2 & ->). inversion O1 as [|n N c0 c3 c0' l3 l4 C O3]; subst.
      destruct (chunk_able _ 1 _ _ _ _ A ltac:(lia) C) as (A1 & _). rewrite <- join_assoc. econstructor; [exact C|]. apply (IH _ _ A1). eauto 8.
Qed.

Lemma chunk_ones k : forall c c' l, able c -> Z.of_nat k <= 1024 -> ((exists N, chunk N e fuel c (Z.of_nat k) = Ok (c', Z.of_nat k, l)) <-> ones e fuel k c c' l).
Proof.
  induction k as [|k IH]; intros c c' l [R NT] K.
  - change (Z.of_nat 0) with 0. split.
    + intros [N E]. rewrite chunk_0 in E by assumption. inversion E; subst. constructor.
    + intros O. inversion O; subst. exists 0%nat. apply chunk_0; assumption.
  - replace (Z.of_nat (S k)) with (1 + Z.of_nat k) by lia. rewrite (chunk_split e fuel c 1 (Z.of_nat k) P R NT ltac:(lia) ltac:(lia) ltac:(lia)). split.
    + intros (N1 & N2 & c1 & l1 & l2 & C1 & C2 & ->). destruct (chunk_able _ 1 _ _ _ _ (conj R NT) ltac:(lia) C1) as (A1 & _).
      econstructor; [exact C1|]. apply IH; [exact A1|lia|]. exists N2. exact C2.
    + intros O. inversion O as [|n N c0 c1 c0' l1 l2 C O1]; subst. destruct (chunk_able _ 1 _ _ _ _ (conj R NT) ltac:(lia) C) as (A1 & _).
      apply IH in O1; [|exact A1|lia]. destruct O1 as [N2 C2]. exists N, N2, c1, l1, l2. auto.
Qed.

Lemma generate_ones m : forall n c rem w c' w' l, able c -> 0 <= rem -> 0 <= w -> w + rem < 4294967296 ->
  generate_loop m n e fuel c rem w = Ok (c', w', l) -> w' = w + rem /\ ones e fuel (Z.to_nat rem) c c' l.
Proof.
  induction m as [|m IH]; intros n c rem w c' w' l A R0 W0 B E; [discriminate|]. rewrite generate_chunk in E. cbv zeta in E.
  set (k := if rem >? BK_MAX_GENERATE_SAMPLES then BK_MAX_GENERATE_SAMPLES else rem) in E. unfold BK_MAX_GENERATE_SAMPLES in k.
  assert (K : 0 <= k <= 1024 /\ k <= rem /\ (rem <= 1024 -> k = rem) /\ (1024 < rem -> k = 1024)) by (unfold k; destruct (Z.gtb_spec rem 1024); lia).
  clearbody k. binv E x E1. destruct x as [[c1 k1] l1]. destruct (chunk_able _ _ _ _ _ _ A (proj1 K) E1) as (A1 & -> & _).
  assert (O1 : ones e fuel (Z.to_nat k) c c1 l1). { apply chunk_ones; [exact A|lia|]. exists n. rewrite Z2Nat.id by lia. exact E1. }
  replace (if k =? 0 then rem else k) with k in E by (destruct (Z.eqb_spec k 0); lia).
  rewrite !u32_small in E by lia. destruct (Z.eqb_spec (rem - k) 0) as [Q|Q]; cbn [negb] in E.
  - inversion E; subst. split; [lia|]. replace (Z.to_nat rem) with (Z.to_nat k) by lia. exact O1.
  - binv E x E2. destruct x as [[c2 w2] l2]. inversion E; subst. apply IH in E2; [|exact A1|lia|lia|lia]. destruct E2 as [-> O2].
    split; [lia|]. replace (Z.to_nat rem) with (Z.to_nat k + Z.to_nat (rem - k))%nat by lia. apply ones_app; [exact A|]. eauto 8.
Qed.

Lemma ones_generate : forall b n c c' l w, (n <= b)%nat -> able c -> 0 <= w -> w + Z.of_nat n < 4294967296 -> ones e fuel n c c' l ->
  exists m k, generate_loop m k e fuel c (Z.of_nat n) w = Ok (c', w + Z.of_nat n, l).
Proof.
  induction b as [|b IH]; intros n c c' l w L A W B O.
  - assert (n = 0%nat) as -> by lia. destruct A as [R NT]. inversion O; subst. exists 1%nat, 0%nat. rewrite generate_chunk. cbv zeta. change (Z.of_nat 0) with 0.
    change (if 0 >? BK_MAX_GENERATE_SAMPLES then BK_MAX_GENERATE_SAMPLES else 0) with 0. rewrite chunk_0 by assumption. cbn [bind].
    change (0 =? 0) with true. cbn iota. change (u32 (0 - 0)) with 0. change (0 =? 0) with true. cbn [negb]. rewrite u32_small by lia. reflexivity.
  - destruct (Nat.le_gt_cases n 1024) as [Q|Q].
    + assert (Q' : Z.of_nat n <= 1024) by lia. apply chunk_ones in O; [|exact A|exact Q']. destruct O as [N E]. exists 1%nat, N. rewrite generate_chunk. cbv zeta.
      unfold BK_MAX_GENERATE_SAMPLES. destruct (Z.gtb_spec (Z.of_nat n) 1024); [lia|]. rewrite E. cbn [bind].
      replace (if Z.of_nat n =? 0 then Z.of_nat n else Z.of_nat n) with (Z.of_nat n) by (destruct (_ =? _); reflexivity).
      rewrite Z.sub_diag. change (u32 0 =? 0) with true. cbn [negb]. rewrite u32_small by lia. reflexivity.
    + replace n with (Z.to_nat 1024 + (n - 1024))%nat in O by (change (Z.to_nat 1024) with 1024%nat; lia). apply ones_app in O; [|exact A].
      destruct O as (c1 & l1 & l2 & O1 & O2 & ->). apply chunk_ones in O1; [|exact A|lia]. rewrite Z2Nat.id in O1 by lia. destruct O1 as [N E].
      destruct (chunk_able _ 1024 _ _ _ _ A ltac:(lia) E) as (A1 & _).
      destruct (IH (n - 1024)%nat c1 c' l2 (w + 1024) ltac:(lia) A1 ltac:(lia) ltac:(lia) O2) as (m & j & G).
      exists (S m), (N + j)%nat. rewrite generate_chunk. cbv zeta. unfold BK_MAX_GENERATE_SAMPLES.
      destruct (Z.gtb_spec (Z.of_nat n) 1024); [|lia]. rewrite (chunk_more _ _ _ _ _ _ j E). cbn [bind]. change (1024 =? 0) with false. cbn iota.
      rewrite !u32_small by lia. replace (Z.of_nat n - 1024) with (Z.of_nat (n - 1024)) by lia.
      destruct (Z.eqb_spec (Z.of_nat (n - 1024)) 0); [lia|]. cbn [negb]. rewrite (Nat.add_comm N j). rewrite (generate_more _ _ _ _ _ _ _ _ N G). cbn [bind].
      f_equal. f_equal. f_equal. lia.
Qed.

(** C51. *)
Theorem generate_split c a b : able c -> 0 <= a -> 0 <= b -> a + b < 4294967296 -> forall c2 w l,
  (exists m n, BKContextGenerate m n e fuel c (a + b) = Ok (c2, w, l)) <->
  exists m1 n1 m2 n2 c1 w1 w2 l1 l2, BKContextGenerate m1 n1 e fuel c a = Ok (c1, w1, l1) /\ BKContextGenerate m2 n2 e fuel c1 b = Ok (c2, w2, l2) /\
    w = w1 + w2 /\ l = join l1 l2.
Proof.
  intros A A0 B0 B c2 w l. unfold BKContextGenerate. split.
  - intros (m & n & E). apply generate_ones in E; [|exact A|lia|lia|lia]. destruct E as [-> O].
    replace (Z.to_nat (a + b)) with (Z.to_nat a + Z.to_nat b)%nat in O by lia. apply ones_app in O; [|exact A].
    destruct O as (c1 & l1 & l2 & O1 & O2 & ->). destruct (ones_able _ _ _ _ O1 A) as (A1 & _).
    destruct (ones_generate _ (Z.to_nat a) c c1 l1 0 ltac:(apply le_n) A ltac:(lia) ltac:(lia) O1) as (m1 & n1 & G1).
    destruct (ones_generate _ (Z.to_nat b) c1 c2 l2 0 ltac:(apply le_n) A1 ltac:(lia) ltac:(lia) O2) as (m2 & n2 & G2).
    rewrite Z2Nat.id in G1, G2 by lia. exists m1, n1, m2, n2, c1, (0 + a), (0 + b), l1, l2. split; [exact G1|]. split; [exact G2|]. split; [lia|reflexivity].
  - intros (m1 & n1 & m2 & n2 & c1 & w1 & w2 & l1 & l2 & G1 & G2 & -> & ->).
    apply generate_ones in G1; [|exact A|lia|lia|lia]. destruct G1 as [-> O1]. destruct (ones_able _ _ _ _ O1 A) as (A1 & _).
    apply generate_ones in G2; [|exact A1|lia|lia|lia]. destruct G2 as [-> O2].
    assert (O : ones e fuel (Z.to_nat a + Z.to_nat b) c c2 (join l1 l2)) by (apply ones_app; [exact A|eauto 8]).
    destruct (ones_generate _ (Z.to_nat a + Z.to_nat b)%nat c c2 _ 0 ltac:(apply le_n) A ltac:(lia) ltac:(lia) O) as (m & n & G).
    exists m, n. replace (a + b) with (Z.of_nat (Z.to_nat a + Z.to_nat b)) by lia. rewrite G. f_equal. f_equal. f_equal. lia.
Qed.

(** C50. *)
Theorem generate_exact c size m n c' w l : able c -> 0 <= size < 4294967296 -> BKContextGenerate m n e fuel c size = Ok (c', w, l) ->
  w = size /\ able c' /\ length l = length (cx_channels c) /\ Forall (fun s => Z.of_nat (length s) = size) l.
Proof.
  intros A S E. unfold BKContextGenerate in E. apply generate_ones in E; [|exact A|lia|lia|lia]. destruct E as [-> O].
  destruct (ones_able _ _ _ _ O A) as (A1 & H1 & H2 & H3). split; [lia|]. split; [exact A1|]. split; [exact H1|].
  eapply Forall_impl; [|exact H3]. cbn. intros. lia.
Qed.
End Generate.
