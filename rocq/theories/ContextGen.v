(** [BKContextGenerate]: exact number of frames, independence of the sizes of calls. *)
From Verif Require Import CInt CIntFacts TimeModel Kernels BufferModel BufferSpec BufferProofs BufferProofs2 UnitModel TrackModel TrackTime UnitShift
  ContextModel ContextSame ContextShift ContextRun ContextChunk.
Ltac Zify.zify_post_hook ::= idtac.

(** ** Composition of reads *)

Lemma rel_front a b s bL bE : rel a s bL bE -> 0 <= a -> 0 <= b -> a + b <= 4129 ->
  firstn (Z.to_nat (a + b)) (b_frames bL) = firstn (Z.to_nat a) (b_frames bL) ++ firstn (Z.to_nat b) (b_frames bE).
Proof.
  intros (A1 & A2 & _ & _ & _ & _ & A7 & _) A B M. rewrite Z2Nat.inj_add by lia. rewrite firstn_add. f_equal.
  assert (LL : Z.of_nat (length (b_frames bL)) = 4129) by (destruct A1 as (-> & _); apply capacity_val).
  assert (LE : Z.of_nat (length (b_frames bE)) = 4129) by (destruct A2 as (-> & _); apply capacity_val).
  apply list_eq_nth; [rewrite !firstn_length, skipn_length; lia|]. intros i. destruct (Nat.lt_ge_cases i (Z.to_nat b)) as [Li|Li].
  - rewrite !nth_firstn_lt by exact Li. rewrite nth_skipn. specialize (A7 (Z.of_nat i) ltac:(lia)). unfold cell in A7.
    rewrite Nat2Z.id in A7. rewrite A7. f_equal. lia.
  - rewrite !nth_overflow; [reflexivity| |]; rewrite firstn_length; lia.
Qed.

Lemma rel_trans a b s1 s2 b1 b2 b3 : rel a s1 b1 b2 -> rel b s2 b2 b3 -> 0 <= a -> 0 <= b -> a + b <= 4129 -> rel (a + b) (s1 ++ s2) b1 b3.
Proof.
  intros R1 R2 A B M. pose proof (rel_front a b _ _ _ R1 A B M) as FR.
  destruct R1 as (A1 & A2 & A3 & A4 & A5 & A6 & A7 & A8). destruct R2 as (B1 & B2 & B3 & B4 & B5 & B6 & B7 & B8).
  unfold rel. split; [exact A1|]. split; [exact B2|]. split; [exact A3|]. split; [exact B4|]. split; [lia|]. split; [congruence|]. split.
  - intros i Hi. rewrite B7, A7 by lia. f_equal. lia.
  - rewrite FR, read_loop_app, A8. cbn [bind fst snd]. rewrite B8. reflexivity.
Qed.

Lemma rel_rest a b s s1 b1 b2 b3 : rel (a + b) s b1 b3 -> rel a s1 b1 b2 -> 0 <= a -> 0 <= b -> a + b <= 4129 ->
  exists s2, rel b s2 b2 b3 /\ s = s1 ++ s2.
Proof.
  intros R R1 A B M. pose proof (rel_front a b _ _ _ R1 A B M) as FR.
  destruct R1 as (A1 & A2 & A3 & A4 & A5 & A6 & A7 & A8). destruct R as (B1 & B2 & B3 & B4 & B5 & B6 & B7 & B8).
  rewrite FR, read_loop_app, A8 in B8. cbn [bind fst snd] in B8. binv B8 r E. destruct r as [acc s2]. cbn [fst snd] in B8.
  exists s2. split; [|congruence]. unfold rel. split; [exact A2|]. split; [exact B2|]. split; [exact A4|]. split; [exact B4|]. split; [lia|].
  split; [congruence|]. split; [|congruence]. intros i Hi. rewrite B7, A7 by lia. f_equal. lia.
Qed.

Lemma rels_trans a b l1 l2 c1 c2 c3 : rels a l1 c1 c2 -> rels b l2 c2 c3 -> 0 <= a -> 0 <= b -> a + b <= 4129 -> rels (a + b) (join l1 l2) c1 c3.
Proof.
  intros R. revert l2 c3. induction R as [|s bL bE ss chL chE R1 R IH]; intros l2 c3 R2 A B M; inversion R2; subst; cbn [join]; constructor.
  - eapply rel_trans; eassumption.
  - apply IH; assumption.
Qed.

Lemma rels_rest a b l l1 c1 c2 c3 : rels (a + b) l c1 c3 -> rels a l1 c1 c2 -> 0 <= a -> 0 <= b -> a + b <= 4129 ->
  exists l2, rels b l2 c2 c3 /\ l = join l1 l2.
Proof.
  intros R0 R. revert l c3 R0. induction R as [|s bL bE ss chL chE R1 R IH]; intros l c3 R2 A B M; inversion R2 as [|s0 x0 y0 ss0 L0 E0 Q1 Q2]; subst.
  - exists []. split; [constructor|reflexivity].
  - destruct (IH _ _ Q2 A B M) as (l2 & I1 & ->). destruct (rel_rest _ _ _ _ _ _ _ Q1 R1 A B M) as (s2 & I3 & ->).
    exists (s2 :: l2). split; [constructor; assumption|reflexivity].
Qed.

Lemma rels_lengths a l c1 c2 : rels a l c1 c2 -> length l = length c1 /\ length c2 = length c1.
Proof. induction 1 as [|? ? ? ? ? ? ? ? [IH1 IH2]]; cbn; split; congruence. Qed.

Lemma rels_sizes a l c1 c2 : rels a l c1 c2 -> 0 <= a <= 4129 -> Forall (fun s => Z.of_nat (length s) = a) l.
Proof. induction 1; intros K; constructor; [eapply rel_length; eassumption|auto]. Qed.

Lemma rel_fine a s bL bE : rel a s bL bE -> 0 <= a -> fine bL -> fine bE.
Proof.
  intros (A1 & A2 & A3 & A4 & A5 & A6 & A7 & A8) A (F1 & F2 & F3). split; [exact A2|]. split; [exact A4|]. intros i Hi.
  assert (0 <= b_capacity bE) by apply A2. rewrite A7 by lia. apply F3. lia.
Qed.

Lemma rels_fine a l c1 c2 : rels a l c1 c2 -> 0 <= a -> Forall fine c1 -> Forall fine c2.
Proof. induction 1; intros K F; inversion F; subst; constructor; [eapply rel_fine; eassumption|auto]. Qed.

Lemma rels_full a l c1 c2 t : rels a l c1 c2 -> Forall (fun b => (t + a * 1048576) / 1048576 <= b_capacity b) c1 -> Forall (fun b => t / 1048576 <= b_capacity b) c2.
Proof.
  induction 1; intros F; inversion F; subst; constructor; [|auto]. destruct H as (_ & _ & _ & _ & H & _). rewrite div_add in *. lia.
Qed.

(** ** Shifts of tracks *)

Lemma shs_shs a b ts : shs a (shs b ts) = shs (a + b) ts.
Proof.
  unfold shs. rewrite map_map. apply map_ext. intros [i t]. cbn [fst snd]. f_equal. unfold sh.
  change (un_time (tr_unit (tm (un_time (tr_unit t) + b) t))) with (un_time (tr_unit t) + b).
  replace (un_time (tr_unit t) + (a + b)) with (un_time (tr_unit t) + b + a) by lia. reflexivity.
Qed.
Lemma shs_0 ts : shs 0 ts = ts.
Proof.
  unfold shs. rewrite <- (map_id ts) at 2. apply map_ext. intros [i t]. cbn [fst snd]. unfold sh. rewrite Z.add_0_r, tm_self. reflexivity.
Qed.
Lemma shs_back d ts : shs d (shs (- d) ts) = ts.
Proof. rewrite shs_shs. replace (d + - d) with 0 by lia. apply shs_0. Qed.
Lemma shs_forth d ts : shs (- d) (shs d ts) = ts.
Proof. rewrite shs_shs. replace (- d + d) with 0 by lia. apply shs_0. Qed.
Lemma shs_inj d a b : shs d a = shs d b -> a = b.
Proof. intros H. rewrite <- (shs_forth d a), H. apply shs_forth. Qed.
Lemma shs_fst d ts : map fst (shs d ts) = map fst ts.
Proof. unfold shs. rewrite map_map. reflexivity. Qed.
Lemma good_shs d time ts : good (time + d) (shs d ts) <-> good time ts.
Proof.
  unfold good, shs. rewrite Forall_map. split; intros H; eapply Forall_impl; try exact H; intros [i t] [P T]; (split; [exact P|]); cbn [snd] in *;
    change (un_time (tr_unit (sh d t))) with (un_time (tr_unit t) + d) in *; lia.
Qed.
Lemma end_tracks T ts : good T ts -> 0 <= T < 2147483648 -> map (end_track T) ts = shs (- T) ts.
Proof.
  intros G B. induction G as [|[i t] ts [P U] G IH]; [reflexivity|]. cbn [map shs fst snd] in *. fold (shs (- T) ts). rewrite <- IH. f_equal.
  unfold end_track, BKUnitEnd, sh, tm. cbn [fst snd]. rewrite u32_small by lia. reflexivity.
Qed.
(** ** One chunk *)

(** A context between calls. *)
Record ready (c : context) : Prop := {
  rd_some : cx_clocks c <> [];
  rd_clocks : Forall (clock_fine (cx_current c)) (cx_clocks c);
  rd_delta : 0 <= cx_delta c <= 715827882;
  rd_tracks : good (cx_delta c) (cx_tracks c);
  rd_channels : Forall fine (cx_channels c);
  rd_some_channel : cx_channels c <> [];
  rd_full : full (cx_delta c) c }.

Lemma ready_live c : ready c -> live (cx_delta c) c.
Proof. intros []. split; assumption. Qed.

Definition chunk (N : nat) (e : env) (fuel : nat) (c : context) (k : Z) : res (context * Z * list (list Z)) :=
  let* c1 := BKContextEnd N e fuel c (u32 (Z.shiftl k BK_FINT20_SHIFT)) in BKContextRead c1 k.

Lemma map_end_track T ts : good T ts -> 0 <= T < 2147483648 -> shs T (map (end_track T) ts) = ts.
Proof. intros G B. rewrite end_tracks by assumption. apply shs_back. Qed.

Lemma end_bound T t ts : good t ts -> T <= t -> t + 2147483648 - T < 4294967296 -> map (end_track T) ts = shs (- T) ts.
Proof.
  intros G L B. induction G as [|[i tr] ts [P U] G IH]; [reflexivity|]. cbn [map shs fst snd] in *. fold (shs (- T) ts). rewrite <- IH. f_equal.
  unfold end_track, BKUnitEnd, sh, tm. cbn [fst snd]. rewrite u32_small by lia. reflexivity.
Qed.

Lemma chunk_spec e fuel c k : env_plain e -> ready c -> cx_tracks c <> [] -> 0 <= k <= 1024 -> forall N c' n ss,
  chunk N e fuel c k = Ok (c', n, ss) <->
  n = k /\ exists chL, run_loop N e fuel c (cx_delta c) (k * 1048576) = Ok (late (k * 1048576) (cx_delta c) chL c', cx_delta c' + k * 1048576) /\
    rels k ss chL (cx_channels c').
Proof.
  intros P R NT K N c' n ss. unfold chunk. rewrite Z.shiftl_mul_pow2 by (unfold BK_FINT20_SHIFT; lia). change (2 ^ BK_FINT20_SHIFT) with 1048576.
  rewrite u32_small by lia. unfold BKContextEnd, BKContextRun. pose proof (ready_live _ R) as L. destruct R as [R1 R2 R3 R4 R5 R6 R7].
  destruct (cx_clocks c) as [|k0 ks0] eqn:CK; [congruence|]. clear CK R1 R2.
  destruct (run_loop N e fuel c (cx_delta c) (k * 1048576)) as [[c1 t1]|] eqn:E.
  - destruct (run_loop_live e fuel (k * 1048576) P ltac:(lia) _ _ _ _ _ L ltac:(lia) E) as ([_ _ V3 V4] & V5 & V6 & V7 & (V8 & V9 & V10 & _) & V11 & V12 & _).
    specialize (V12 NT R7). cbn [bind]. cbv zeta. cbn [x_delta x_tracks x_channels cx_tracks cx_delta cx_channels].
    rewrite (end_bound (k * 1048576) t1) by (assumption || lia). rewrite u32_small by lia.
    assert (C : Forall (fun b => k <= b_capacity b) (cx_channels c1)).
    { unfold full in V12. eapply Forall_impl; [|exact V12]. cbn. intros b Hb. pose proof (div_mono _ _ V6). rewrite Z.div_mul in * by lia. lia. }
    assert (NE : cx_channels c1 <> []) by (destruct (cx_channels c1), (cx_channels c); cbn in V10; congruence).
    unfold BKContextRead. cbn [x_delta x_tracks x_channels cx_tracks cx_delta cx_channels]. split.
    + intros H. binv H r E2. destruct r as [[chs n1] l]. apply (read_channels_rels k ltac:(lia) _ _ _ _ V4 C NE) in E2. destruct E2 as [-> RL].
      match type of H with Ok (?x, _, _) = _ => assert (c' = x) as -> by congruence end. assert (n = k) as -> by congruence. assert (ss = l) as -> by congruence.
      split; [reflexivity|]. exists (cx_channels c1). split; [|exact RL]. cbn [x_channels x_tracks x_delta cx_delta]. f_equal. f_equal; [|lia].
      unfold late. cbn [x_channels x_tracks x_delta cx_rate cx_period cx_current cx_delta cx_clocks cx_tracks]. rewrite shs_back, <- V9. destruct c1; reflexivity.
    + intros (-> & chL & H & RL). assert (c1 = late (k * 1048576) (cx_delta c) chL c') as -> by congruence.
      assert (t1 = cx_delta c' + k * 1048576) as -> by congruence. cbn [late cx_channels] in *.
      rewrite (proj2 (read_channels_rels k ltac:(lia) chL _ _ _ V4 C NE) (conj eq_refl RL)). cbn [bind]. f_equal. f_equal. f_equal.
      unfold x_channels, x_tracks, x_delta, late. cbn [cx_rate cx_period cx_current cx_delta cx_clocks cx_tracks]. rewrite shs_forth.
      replace (cx_delta c' + k * 1048576 - k * 1048576) with (cx_delta c') by lia. destruct c'; reflexivity.
  - cbn [bind]. split; [discriminate|]. intros (_ & chL & H & _). discriminate H.
Qed.

Lemma chunk_ready e fuel c k N c' n ss : env_plain e -> ready c -> cx_tracks c <> [] -> 0 <= k <= 1024 -> chunk N e fuel c k = Ok (c', n, ss) ->
  ready c' /\ n = k /\ length ss = length (cx_channels c) /\ Forall (fun s => Z.of_nat (length s) = k) ss /\
  map fst (cx_tracks c') = map fst (cx_tracks c) /\ length (cx_channels c') = length (cx_channels c) /\
  map k_id (cx_clocks c') = map k_id (cx_clocks c) /\ cx_rate c' = cx_rate c /\ cx_period c' = cx_period c /\
  cx_current c' - cx_delta c' = cx_current c - cx_delta c + k * 1048576.
Proof.
  intros P R NT K E. apply (chunk_spec e fuel c k P R NT K) in E. destruct E as (-> & chL & E & RL).
  pose proof (ready_live _ R) as L. destruct R as [R1 R2 R3 R4 R5 R6 R7].
  destruct (run_loop_live e fuel (k * 1048576) P ltac:(lia) _ _ _ _ _ L ltac:(lia) E) as ([V1 V2 V3 V4] & V5 & V6 & V7 & (V8 & V9 & V10 & V13 & V14 & V15) & V11 & V12 & _).
  specialize (V12 NT R7). cbn [late cx_clocks cx_tracks cx_channels cx_current cx_rate cx_period] in *.
  destruct (rels_lengths _ _ _ _ RL) as [RL1 RL2]. unfold full in V12. cbn [late cx_channels] in V12. rewrite shs_fst in V8.
  split.
  { split; [exact V1|exact V2|lia|apply good_shs in V3; exact V3|eapply rels_fine; [exact RL|lia|exact V4]| |].
    - intros Z. rewrite Z in RL2. cbn in RL2. destruct (cx_channels c); [congruence|]. cbn in V10. congruence.
    - eapply rels_full; [exact RL|exact V12]. }
  split; [reflexivity|]. split; [congruence|]. split; [eapply rels_sizes; [exact RL|lia]|]. split; [exact V8|]. split; [congruence|]. split; [exact V13|]. split; [exact V14|]. split; [exact V15|]. lia.
Qed.

(** Reading the first frames succeeds if reading more of them does. *)
Lemma rels_prefix a b : 0 <= a -> 0 <= b -> forall l c1 c2 cm, rels (a + b) l c1 c2 -> Forall2 (front a) cm c1 -> Forall fine cm -> Forall (fun x => a <= b_capacity x) cm ->
  exists l1 ce, rels a l1 cm ce.
Proof.
  intros A B l c1 c2 cm R. revert cm. induction R as [|s bL bE ss chL chE R1 R IH]; intros cm F FI C; inversion F as [|x y cm' z [F1 F2] F3]; subst.
  - exists [], []. constructor.
  - inversion FI as [|? ? FI1 FI2]; inversion C as [|? ? C1 C2]; subst. destruct (IH _ F3 FI2 C2) as (l1 & ce & I1).
    destruct R1 as (_ & _ & _ & _ & _ & _ & _ & E). rewrite Z2Nat.inj_add, firstn_add, read_loop_app, F1, F2 in E by lia. binv E r E1. destruct r as [acc s1].
    eexists (s1 :: l1), (_ :: ce). constructor; [|exact I1]. apply (read_rel x a s1 acc FI1); [lia|exact E1].
Qed.

Lemma late_late d1 d2 dl1 dl2 ch1 ch2 c : late d1 dl1 ch1 (late d2 dl2 ch2 c) = late (d1 + d2) dl1 ch1 c.
Proof. unfold late. cbn [cx_rate cx_period cx_current cx_delta cx_clocks cx_tracks]. rewrite shs_shs. reflexivity. Qed.

Lemma late_eq d dl ch c : cx_delta c = dl -> cx_channels c = ch -> late d dl ch (mk_context (cx_rate c) (cx_period c) (cx_current c) dl (cx_clocks c) (shs (- d) (cx_tracks c)) []) = c.
Proof. intros <- <-. unfold late. cbn [cx_rate cx_period cx_current cx_delta cx_clocks cx_tracks]. rewrite shs_back. destruct c; reflexivity. Qed.

(** A chunk can be split in two. *)
Theorem chunk_split e fuel c a b : env_plain e -> ready c -> cx_tracks c <> [] -> 0 <= a -> 0 <= b -> a + b <= 1024 -> forall c2 l,
  (exists N, chunk N e fuel c (a + b) = Ok (c2, a + b, l)) <->
  exists N1 N2 c1 l1 l2, chunk N1 e fuel c a = Ok (c1, a, l1) /\ chunk N2 e fuel c1 b = Ok (c2, b, l2) /\ l = join l1 l2.
Proof.
  intros P R NT A B M c2 l. split.
  - intros [N E]. apply (chunk_spec e fuel c (a + b) P R NT ltac:(lia)) in E. destruct E as (_ & chL & E & RL).
    destruct (run_loop_split _ _ _ _ _ (a * 1048576) ((a + b) * 1048576) _ ltac:(lia) E) as (cm & tm & E1 & E2).
    pose proof (ready_live _ R) as L. pose proof R as R'. destruct R' as [_ _ R3 _ _ _ R7].
    destruct (run_loop_live e fuel (a * 1048576) P ltac:(lia) _ _ _ _ _ L ltac:(lia) E1) as (V & V5 & V6 & V7 & V8 & V11 & V12 & _).
    specialize (V12 NT R7).
    destruct (run_loop_live e fuel ((a + b) * 1048576) P ltac:(lia) _ _ _ _ _ V ltac:(lia) E2) as (_ & _ & _ & _ & W8 & _ & _ & W9).
    specialize (W9 a V6). cbn [late cx_channels] in W9.
    assert (CM : Forall (fun x => a <= b_capacity x) (cx_channels cm)).
    { unfold full in V12. eapply Forall_impl; [|exact V12]. cbn. intros x Hx. pose proof (div_mono _ _ V6). rewrite Z.div_mul in * by lia. lia. }
    destruct (rels_prefix a b A B _ _ _ _ RL W9 (lv_channels _ _ V) CM) as (l1 & ce & R1).
    set (c1 := mk_context (cx_rate cm) (cx_period cm) (cx_current cm) (tm - a * 1048576) (cx_clocks cm) (shs (- (a * 1048576)) (cx_tracks cm)) ce).
    assert (CE : cm = late (a * 1048576) (cx_delta c) (cx_channels cm) c1).
    { unfold late, c1. cbn [cx_rate cx_period cx_current cx_delta cx_clocks cx_tracks]. rewrite shs_back. destruct V8 as (_ & <- & _). destruct cm; reflexivity. }
    assert (C1 : chunk N e fuel c a = Ok (c1, a, l1)).
    { apply (chunk_spec e fuel c a P R NT ltac:(lia)). split; [reflexivity|]. exists (cx_channels cm). split; [|exact R1].
      rewrite E1. rewrite CE at 1. f_equal. f_equal. unfold c1. cbn [cx_delta]. lia. }
    destruct (chunk_ready e fuel c a N c1 a l1 P R NT ltac:(lia) C1) as (RD & _ & _ & _ & T1 & _).
    assert (NT1 : cx_tracks c1 <> []) by (apply (fst_nil (cx_tracks c)); assumption).
    pose proof (run_loop_rel a e fuel (b * 1048576) (cx_delta c) l1 P A ltac:(lia) N c1 (cx_delta c1) (cx_channels cm) (ready_live _ RD)
       ltac:(apply RD) ltac:(pose proof (rd_delta _ RD); lia) R1) as BB.
    rewrite <- CE in BB. replace (cx_delta c1 + a * 1048576) with tm in BB by (unfold c1; cbn [cx_delta]; lia).
    replace (b * 1048576 + a * 1048576) with ((a + b) * 1048576) in BB by lia. rewrite E2 in BB.
    destruct (run_loop N e fuel c1 (cx_delta c1) (b * 1048576)) as [[cE tE]|] eqn:E3; [|contradiction]. cbn [both fst snd] in BB.
    destruct BB as (B1 & chL' & B2 & B3).
    assert (chL' = chL) as -> by (apply (f_equal cx_channels) in B2; exact (eq_sym B2)).
    destruct (rels_rest a b _ _ _ _ _ RL B3 A B ltac:(lia)) as (l2 & RL2 & ->).
    destruct (run_loop_live e fuel (b * 1048576) P ltac:(lia) _ _ _ _ _ (ready_live _ RD) ltac:(pose proof (rd_delta _ RD); lia) E3) as (_ & _ & _ & _ & (_ & X & _) & _).
    exists N, N, c1, l1, l2. split; [exact C1|]. split; [|reflexivity].
    apply (chunk_spec e fuel c1 b P RD NT1 ltac:(lia)). split; [reflexivity|]. exists (cx_channels cE). split; [|exact RL2].
    rewrite E3. f_equal. f_equal; [|lia]. unfold late in B2 |- *.
    assert (Y : shs (a * 1048576) (shs (b * 1048576) (cx_tracks c2)) = shs (a * 1048576) (cx_tracks cE)).
    { rewrite shs_shs. apply (f_equal cx_tracks) in B2. cbn [cx_tracks] in B2. rewrite <- B2. f_equal. lia. }
    apply shs_inj in Y. rewrite Y, <- X.
    apply (f_equal (fun x => (cx_rate x, cx_period x, cx_current x, cx_clocks x))) in B2. cbn [cx_rate cx_period cx_current cx_clocks] in B2. injection B2 as B4 B5 B6 B7. rewrite B4, B5, B6, B7. destruct cE; reflexivity.
  - intros (N1 & N2 & c1 & l1 & l2 & C1 & C2 & ->).
    destruct (chunk_ready e fuel c a N1 c1 a l1 P R NT ltac:(lia) C1) as (RD & _ & _ & _ & T1 & _).
    assert (NT1 : cx_tracks c1 <> []) by (apply (fst_nil (cx_tracks c)); assumption).
    apply (chunk_spec e fuel c a P R NT ltac:(lia)) in C1. destruct C1 as (_ & chM & E1 & R1).
    apply (chunk_spec e fuel c1 b P RD NT1 ltac:(lia)) in C2. destruct C2 as (_ & chE & E2 & R2).
    pose proof (run_loop_rel a e fuel (b * 1048576) (cx_delta c) l1 P A ltac:(lia) N2 c1 (cx_delta c1) chM (ready_live _ RD)
       ltac:(apply RD) ltac:(pose proof (rd_delta _ RD); lia) R1) as BB.
    rewrite E2 in BB. destruct (run_loop N2 e fuel (late (a * 1048576) (cx_delta c) chM c1) _ _) as [[cL tL]|] eqn:E3; [|contradiction].
    cbn [both fst snd late cx_channels] in BB. destruct BB as (-> & chL & -> & R3).
    exists (N1 + N2)%nat. apply (chunk_spec e fuel c (a + b) P R NT ltac:(lia)). split; [reflexivity|]. exists chL. split.
    + replace (b * 1048576 + a * 1048576) with ((a + b) * 1048576) in E3 by lia.
      rewrite (run_loop_app _ _ _ _ _ _ (a * 1048576) ((a + b) * 1048576) _ _ _ ltac:(lia) E1 E3). f_equal.
      f_equal; [|lia]. change (mk_context _ _ _ _ _ _ _) with (late (b * 1048576) (cx_delta c1) chE c2). rewrite late_late. f_equal. lia.
    + eapply rels_trans; eassumption || lia.
Qed.
