(** One step of [BKContextGenerate]: it can be split. *)
From Verif Require Import CInt CIntFacts TimeModel Kernels BufferModel BufferSpec BufferProofs BufferProofs2 UnitModel TrackModel TrackTime UnitShift
  ContextModel ContextSame ContextShift ContextRun.
Ltac Zify.zify_post_hook ::= idtac.

(** ** Running *)

(** A context while it runs, at a time. *)
Record live (time : Z) (c : context) : Prop := {
  lv_some : cx_clocks c <> [];
  lv_clocks : Forall (clock_fine (cx_current c)) (cx_clocks c);
  lv_tracks : good time (cx_tracks c);
  lv_channels : Forall fine (cx_channels c) }.

(** The channels have frames up to a time. *)
Definition full (time : Z) (c : context) : Prop := Forall (fun b => time / 1048576 <= b_capacity b) (cx_channels c).

(** What a run does not change. *)
Definition steady (c c' : context) : Prop :=
  map fst (cx_tracks c') = map fst (cx_tracks c) /\ cx_delta c' = cx_delta c /\ length (cx_channels c') = length (cx_channels c) /\
  map k_id (cx_clocks c') = map k_id (cx_clocks c) /\ cx_rate c' = cx_rate c /\ cx_period c' = cx_period c.

Lemma steady_refl c : steady c c.
Proof. unfold steady. auto 8. Qed.
Lemma steady_trans a b c : steady a b -> steady b c -> steady a c.
Proof. unfold steady. intros (A1 & A2 & A3 & A4 & A5 & A6) (B1 & B2 & B3 & B4 & B5 & B6). repeat split; congruence. Qed.

Lemma kept_fst ts ts' : kept ts ts' -> map fst ts' = map fst ts.
Proof. induction 1 as [|x y ts ts' (K & _) _ IH]; [reflexivity|]. cbn. congruence. Qed.

Lemma fst_nil {A B} (l l' : list (A * B)) : map fst l' = map fst l -> l <> [] -> l' <> [].
Proof. destruct l, l'; cbn; congruence. Qed.

Lemma step_live e fuel c time c1 q c2 : env_plain e -> live time c -> 0 <= time <= 1073741824 ->
  BKClocksAdvance e fuel c = Ok (c1, q) -> run_units fuel c1 (time + q) = Ok c2 ->
  1 <= q <= 715827882 /\ live (time + q) c2 /\ steady c c2 /\ cx_current c2 = cx_current c + q /\
  (cx_tracks c <> [] -> full (time + q) c2) /\ (forall a, a * 1048576 <= time -> Forall2 (front a) (cx_channels c) (cx_channels c2)) /\
  Forall2 (fun b b' => b_capacity b <= b_capacity b') (cx_channels c) (cx_channels c2).
Proof.
  intros P [L1 L2 L3 L4] T E1 E2. destruct (advance_fine _ _ _ _ _ P L1 L2 E1) as (A1 & A2 & A3 & A4 & A5 & A6 & A7 & A8 & A9 & A10).
  unfold run_units in E2. binv E2 r E3. destruct r as [ts chs]. assert (c2 = x_channels (x_tracks c1 ts) chs) as -> by congruence.
  rewrite A7 in E3. pose proof (kept_good _ _ _ A5 L3) as G. pose proof (run_tracks_length _ _ _ _ _ _ E3) as LN.
  destruct (run_tracks_fine fuel (time + q) ltac:(lia) ltac:(lia) _ _ _ _ time G ltac:(lia) L4 E3) as (R1 & R2 & R3 & R4 & R5).
  split; [exact A1|]. split; [split; assumption|].
  split.
  { unfold steady. cbn [x_channels x_tracks cx_tracks cx_delta cx_channels cx_clocks cx_rate cx_period].
    split; [rewrite R5; apply kept_fst; exact A5|]. repeat split; congruence. }
  split; [exact A2|]. split.
  { intros N. apply R4. apply (fst_nil (cx_tracks c)); [apply kept_fst; exact A5|exact N]. }
  split; [|exact R3]. intros a A. apply (run_tracks_front a fuel (time + q) ltac:(lia) ltac:(lia) _ _ _ _ time G ltac:(lia) L4 A E3).
Qed.

Lemma caps_full time chs chs' : Forall2 (fun b b' => b_capacity b <= b_capacity b') chs chs' ->
  Forall (fun b => time / 1048576 <= b_capacity b) chs -> Forall (fun b => time / 1048576 <= b_capacity b) chs'.
Proof. induction 1; intros F; inversion F; subst; constructor; [lia|auto]. Qed.

Lemma run_loop_live e fuel endTime : env_plain e -> endTime <= 1073741824 -> forall n c time c' t', live time c -> 0 <= time < 2147483648 ->
  run_loop n e fuel c time endTime = Ok (c', t') ->
  live t' c' /\ time <= t' /\ endTime <= t' /\ (t' < endTime + 715827882 \/ t' = time) /\ steady c c' /\
  cx_current c' = cx_current c + (t' - time) /\ (cx_tracks c <> [] -> full time c -> full t' c') /\
  (forall a, a * 1048576 <= time -> Forall2 (front a) (cx_channels c) (cx_channels c')).
Proof.
  intros P M. induction n as [|n IH]; intros c time c' t' L T E; cbn [run_loop] in E; destruct (Z.ltb_spec time endTime) as [Q|Q]; try discriminate.
  1, 3: assert (c' = c) as -> by congruence; assert (t' = time) as -> by congruence; split; [exact L|]; split; [lia|]; split; [lia|];
    split; [lia|]; split; [apply steady_refl|]; split; [lia|]; split; [auto|]; intros a _; apply front_refl.
  binv E r E1. destruct r as [c1 q]. cbv zeta in E. binv E c2 E2.
  assert (Q1 : 1 <= q <= 715827882) by (destruct L as [L1 L2 L3 L4]; apply (advance_fine _ _ _ _ _ P L1 L2 E1)).
  rewrite u32_small in E2, E by lia.
  destruct (step_live _ _ _ _ _ _ _ P L ltac:(lia) E1 E2) as (_ & S1 & S2 & S3 & S4 & S5 & S6).
  destruct (IH _ _ _ _ S1 ltac:(lia) E) as (I1 & I2 & I3 & I4 & I5 & I6 & I7 & I8).
  split; [exact I1|]. split; [lia|]. split; [lia|]. split; [lia|]. split; [eapply steady_trans; eassumption|]. split; [lia|]. split.
  - intros N F. apply I7; [apply (fst_nil (cx_tracks c)); [apply S2|exact N]|]. apply S4. exact N.
  - intros a A. eapply front_trans; [apply S5; exact A|]. apply I8. lia.
Qed.

Lemma run_loop_more n : forall e fuel c time endTime r k, run_loop n e fuel c time endTime = Ok r -> run_loop (n + k) e fuel c time endTime = Ok r.
Proof.
  induction n as [|n IH]; intros e fuel c time endTime r k E.
  - cbn [run_loop] in E. destruct (time <? endTime) eqn:Q; [discriminate|]. destruct k; cbn [Nat.add run_loop]; rewrite Q; exact E.
  - cbn [Nat.add run_loop] in *. destruct (time <? endTime); [|exact E]. binv E x E1. destruct x as [c1 q]. cbv zeta in E. binv E c2 E2.
    rewrite E1. cbn [bind]. rewrite E2. cbn [bind]. apply IH. exact E.
Qed.

Lemma run_loop_app n k : forall e fuel c time mid endTime c1 t1 r, mid <= endTime -> run_loop n e fuel c time mid = Ok (c1, t1) ->
  run_loop k e fuel c1 t1 endTime = Ok r -> run_loop (n + k) e fuel c time endTime = Ok r.
Proof.
  induction n as [|n IH]; intros e fuel c time mid endTime c1 t1 r M E1 E2; cbn [Nat.add run_loop] in *; destruct (Z.ltb_spec time mid) as [Q|Q]; try discriminate.
  - assert (c1 = c) as -> by congruence. assert (t1 = time) as -> by congruence. exact E2.
  - replace (time <? endTime) with true by lia. binv E1 x E3. destruct x as [c2 q]. cbv zeta in E1. binv E1 c3 E4.
    rewrite E3. cbn [bind]. rewrite E4. cbn [bind]. apply (IH _ _ _ _ _ _ _ _ _ M E1 E2).
  - assert (c1 = c) as -> by congruence. assert (t1 = time) as -> by congruence.
    apply (run_loop_more _ _ _ _ _ _ _ (S n)) in E2. rewrite Nat.add_comm in E2. exact E2.
Qed.

Lemma run_loop_split n : forall e fuel c time mid endTime r, mid <= endTime -> run_loop n e fuel c time endTime = Ok r ->
  exists c1 t1, run_loop n e fuel c time mid = Ok (c1, t1) /\ run_loop n e fuel c1 t1 endTime = Ok r.
Proof.
  induction n as [|n IH]; intros e fuel c time mid endTime r M E.
  - cbn [run_loop] in *. destruct (Z.ltb_spec time endTime); [discriminate|]. replace (time <? mid) with false by lia.
    exists c, time. split; [reflexivity|]. replace (time <? endTime) with false by lia. exact E.
  - destruct (Z.ltb_spec time mid) as [Q|Q].
    + pose proof E as E0. cbn [run_loop] in E. replace (time <? endTime) with true in E by lia. binv E x E1. destruct x as [c1 q]. cbv zeta in E. binv E c2 E2.
      destruct (IH _ _ _ _ mid _ _ M E) as (c3 & t3 & I1 & I2). exists c3, t3. split.
      * cbn [run_loop]. replace (time <? mid) with true by lia. rewrite E1. cbn [bind]. rewrite E2. cbn [bind]. exact I1.
      * replace (S n) with (n + 1)%nat by lia. apply run_loop_more. exact I2.
    + exists c, time. split; [|exact E]. cbn [run_loop]. replace (time <? mid) with false by lia. reflexivity.
Qed.

(** Both contexts do the same. *)
Lemma run_loop_rel a e fuel endTime dl ss : env_plain e -> 0 <= a -> endTime + a * 1048576 <= 1073741824 -> forall n c time chL,
  live time c -> 0 <= time -> time + a * 1048576 < 2147483648 -> rels a ss chL (cx_channels c) ->
  both (fun p q => snd p = snd q + a * 1048576 /\ exists chL', fst p = late (a * 1048576) dl chL' (fst q) /\ rels a ss chL' (cx_channels (fst q)))
    (run_loop n e fuel (late (a * 1048576) dl chL c) (time + a * 1048576) (endTime + a * 1048576)) (run_loop n e fuel c time endTime).
Proof.
  intros P A M. set (d := a * 1048576) in *. assert (D : 0 <= d) by lia.
  induction n as [|n IH]; intros c time chL L T T2 R; cbn [run_loop]; replace (time + d <? endTime + d) with (time <? endTime) by lia;
    destruct (Z.ltb_spec time endTime) as [Q|Q].
  1: exact I.
  1, 3: cbn [both fst snd]; split; [reflexivity|]; exists chL; split; [reflexivity|exact R].
  rewrite advance_late by exact P. destruct (BKClocksAdvance e fuel c) as [[c1 q]|] eqn:E1; [|exact I]. cbn [rmap bind]. cbv zeta.
  destruct L as [L1 L2 L3 L4]. destruct (advance_fine _ _ _ _ _ P L1 L2 E1) as (A1 & A2 & A3 & A4 & A5 & A6 & A7 & A8 & A9 & A10).
  rewrite !u32_small by lia. replace (time + d + q) with (time + q + d) by lia.
  pose proof (kept_good _ _ _ A5 L3) as G.
  eapply (both_bind (fun x y => exists chL', x = late d dl chL' y /\ rels a ss chL' (cx_channels y))).
  - unfold run_units. cbn [late cx_tracks cx_channels]. eapply both_bind.
    { apply (run_tracks_rel a fuel (time + q) A ltac:(lia) ltac:(lia) _ _ _ ss time G ltac:(lia)). rewrite A7. exact R. }
    intros [tL cL] [tE cE] _ _ [R1 R2]. cbn [fst snd both] in *. exists cL. subst tL. split; [reflexivity|exact R2].
  - intros x y Ex Ey (chL' & -> & R'). apply IH; [|lia|lia|exact R'].
    apply (step_live e fuel c time c1 q y P (Build_live _ _ L1 L2 L3 L4) ltac:(lia) E1 Ey).
Qed.

(** ** Reading *)

Lemma read_shifted b k : fine b -> 0 <= k <= b_capacity b ->
  BKBufferRead (BKBufferShift b (k * 1048576)) k =
  let* r := read_loop (firstn (Z.to_nat k) (b_frames b)) (b_accum b) in
  Ok (mk_buffer 0 (b_capacity b - k) (fst r) (read_frames (b_frames b) k (b_capacity b)) (b_pulse b), snd r).
Proof.
  intros (B1 & B2 & B3) K. assert (CB : 0 <= b_capacity b <= 4095) by apply B1. rewrite read_unfold; [|apply shift_ok; exact B1|lia].
  unfold BKBufferShift. cbn [b_time b_capacity b_accum b_frames b_pulse]. rewrite B2, Z.add_0_l.
  rewrite Z.shiftl_mul_pow2 by (unfold BK_FINT20_SHIFT; lia). change (2 ^ BK_FINT20_SHIFT) with 1048576.
  rewrite Z.add_0_l, (u32_small (k * 1048576)), (u32_small (b_capacity b * 1048576)) by lia.
  destruct (Z.gtb_spec (k * 1048576) (b_capacity b * 1048576)) as [G|G]; [lia|]. rewrite (u32_small (k * 1048576)) by lia.
  replace (BKMin k (b_capacity b)) with k by (unfold BKMin; destruct (Z.ltb_spec k (b_capacity b)); lia).
  rewrite Z.sub_diag. reflexivity.
Qed.

Lemma read_loop_ok l a r : is_s32 a -> read_loop l a = Ok r -> is_s32 (fst r).
Proof.
  intros A E. destruct (read_loop_spec l a A) as [(a' & E1 & _ & E2 & _)|(E1 & _)]; rewrite E1 in E; [|discriminate].
  inversion E; subst. exact E2.
Qed.

Lemma read_rel b k s accum : fine b -> 0 <= k <= b_capacity b -> read_loop (firstn (Z.to_nat k) (b_frames b)) (b_accum b) = Ok (accum, s) ->
  rel k s b (mk_buffer 0 (b_capacity b - k) accum (read_frames (b_frames b) k (b_capacity b)) (b_pulse b)).
Proof.
  intros (B1 & B2 & B3) K E. unfold rel. split; [exact B1|]. destruct B1 as (H1 & H2 & H3 & H4 & H5 & H6). split.
  - unfold buffer_ok. cbn [b_time b_capacity b_accum b_frames b_pulse]. split; [apply read_frames_length; (assumption || lia)|].
    split; [lia|]. split; [lia|]. split; [exact H4|]. split; [apply (read_loop_ok _ _ _ H5 E)|]. intros v Hv.
    destruct (In_read_frames _ _ _ _ Hv) as [->|Hv']; [unfold is_s32; lia|apply H6; exact Hv'].
  - cbn [b_time b_capacity b_accum b_frames b_pulse]. split; [exact B2|]. split; [reflexivity|]. split; [lia|]. split; [reflexivity|]. split; [|exact E].
    intros i Hi. rewrite cell_read_frames by (assumption || lia).
    destruct (Z.ltb_spec i (b_capacity b + 33 - k)); [reflexivity|].
    rewrite (B3 (i + k)) by lia. destruct (Z.ltb_spec i (b_capacity b + 33)); [reflexivity|]. apply B3. lia.
Qed.

Lemma rel_unique k s s' b b1 b2 : rel k s b b1 -> rel k s' b b2 -> b1 = b2 /\ s = s'.
Proof.
  intros (A1 & A2 & A3 & A4 & A5 & A6 & A7 & A8) (B1 & B2 & B3 & B4 & B5 & B6 & B7 & B8). split; [|congruence].
  assert (F : b_frames b1 = b_frames b2).
  { apply frames_ext; [apply A2|apply B2|]. intros j Hj. rewrite A7, B7 by exact Hj. reflexivity. }
  assert (b_capacity b1 = b_capacity b2) by lia. assert (b_accum b1 = b_accum b2) by congruence.
  destruct b1 as [t1 c1 a1 f1 p1], b2 as [t2 c2 a2 f2 p2]. cbn [b_time b_capacity b_accum b_frames b_pulse] in *. congruence.
Qed.

Lemma rel_read b k s b' : fine b -> 0 <= k <= b_capacity b -> rel k s b b' -> BKBufferRead (BKBufferShift b (k * 1048576)) k = Ok (b', s).
Proof.
  intros F K R. rewrite read_shifted by assumption. assert (E := R). destruct E as (_ & _ & _ & _ & _ & _ & _ & E). rewrite E. cbn [bind fst snd].
  destruct (rel_unique _ _ _ _ _ _ R (read_rel b k s (b_accum b') F K E)) as [-> _]. reflexivity.
Qed.

Lemma loop_length l a r : read_loop l a = Ok r -> length (snd r) = length l.
Proof. apply read_loop_length. Qed.

Lemma rel_length k s b b' : rel k s b b' -> 0 <= k <= 4129 -> Z.of_nat (length s) = k.
Proof.
  intros (H & _ & _ & _ & _ & _ & _ & E) K. apply loop_length in E. cbn [snd] in E. rewrite E, firstn_length.
  destruct H as (H & _). rewrite H. pose proof capacity_val. lia.
Qed.

Lemma read_channels_rels k : 0 <= k -> forall chs chs' n ss, Forall fine chs -> Forall (fun b => k <= b_capacity b) chs -> chs <> [] ->
  (read_channels (map (fun b => BKBufferShift b (k * 1048576)) chs) k = Ok (chs', n, ss) <-> n = k /\ rels k ss chs chs').
Proof.
  intros K. induction chs as [|b chs IH]; intros chs' n ss F C NE; [congruence|]. clear NE.
  inversion F as [|x y F1 F2]; inversion C as [|z w C1 C2]; subst.
  assert (CB : 0 <= b_capacity b <= 4095) by apply F1.
  assert (G : forall chs' n ss, read_channels (map (fun b => BKBufferShift b (k * 1048576)) chs) k = Ok (chs', n, ss) <-> n = k /\ rels k ss chs chs').
  { destruct chs as [|b2 chs]; [|intros; apply IH; [assumption|assumption|discriminate]]. intros cs m s. cbn. split.
    - intros E. inversion E; subst. split; [reflexivity|constructor].
    - intros [-> R]. inversion R. reflexivity. }
  cbn [map read_channels]. split.
  - intros E. binv E r E1. destruct r as [b1 s]. binv E r E2. destruct r as [[chs1 n1] l1]. inversion E; subst. clear E.
    rewrite read_shifted in E1 by (assumption || lia). binv E1 r E3. destruct r as [acc s1]. cbn [fst snd] in E1.
    pose proof (read_rel b k s1 acc F1 ltac:(lia) E3) as R. inversion E1; subst. clear E1.
    rewrite (rel_length _ _ _ _ R ltac:(lia)) in E2. apply G in E2. destruct E2 as [-> R2]. split; [reflexivity|]. constructor; assumption.
  - intros [-> R]. inversion R as [|s bL bE ss1 chL chE R1 R2]; subst.
    rewrite (rel_read _ k _ _ F1 (conj K C1) R1). cbn [bind]. rewrite (rel_length _ _ _ _ R1 ltac:(lia)).
    assert (E2 := proj2 (G chE k ss1) (conj eq_refl R2)). rewrite E2. reflexivity.
Qed.
