(** Running the units of a context: time bounds, and runs of an early and of a late context. *)
From Verif Require Import CInt CIntFacts TimeModel Kernels BufferModel BufferSpec BufferProofs BufferProofs2 UnitModel TrackModel TrackTime UnitShift
  ContextModel ContextSame ContextShift.
Ltac Zify.zify_post_hook ::= idtac.

Lemma div_mono a b : a <= b -> a / 1048576 <= b / 1048576.
Proof. intros. apply Z.div_le_mono; lia. Qed.

Lemma div_add a z : (z + a * 1048576) / 1048576 = z / 1048576 + a.
Proof. apply Z.div_add. lia. Qed.

Lemma div_range z : 0 <= z < 4294967296 -> 0 <= z / 1048576 <= 4095.
Proof. intros. Z.to_euclidean_division_equations. lia. Qed.

(** ** Buffers *)

(** Nothing is stored behind the frames that count; nothing has been shifted and not read. *)
Definition fine (b : buffer) : Prop :=
  buffer_ok b /\ b_time b = 0 /\ forall i, b_capacity b + 33 <= i -> cell (b_frames b) i = 0.

Lemma pulse_far K T p i : T / 1048576 + 32 <= i -> pulse_at K T p i = 0.
Proof. intros. unfold pulse_at. replace (i <? T / 1048576 + 32) with false by lia. rewrite andb_false_r. reflexivity. Qed.

Lemma pulses_far K hi : forall l i, Forall (fun p : Z * Z => fst p < hi) l -> (hi - 1) / 1048576 + 32 <= i -> pulses_at K l i = 0.
Proof.
  induction l as [|[t p] l IH]; intros i H L; [reflexivity|]. inversion H; subst. cbn [fst] in *. rewrite pulses_at_cons, IH by assumption.
  rewrite pulse_far; [reflexivity|]. pose proof (div_mono t (hi - 1) ltac:(lia)). lia.
Qed.

Lemma end_time0 b time : b_time b = 0 -> 0 <= time < 4294967296 ->
  BKBufferEnd b time = mk_buffer 0 (Z.max (time / 1048576) (b_capacity b)) (b_accum b) (b_frames b) (b_pulse b).
Proof.
  intros T R. unfold BKBufferEnd. rewrite T, Z.add_0_l, (u32_small time R). cbv zeta. rewrite off_eq.
  destruct (Z.gtb_spec (time / 1048576) (b_capacity b)); f_equal; lia.
Qed.

Lemma add_all_fine b l b1 e t' : fine b -> timed 0 (e + 1048576) l -> 0 <= e -> e + 1048576 < 4294967296 -> e <= t' < 4294967296 ->
  add_all b l = Ok b1 ->
  fine (BKBufferEnd b1 t') /\ b_capacity b <= b_capacity (BKBufferEnd b1 t') /\ e / 1048576 <= b_capacity (BKBufferEnd b1 t').
Proof.
  intros (B1 & B2 & B3) TL E0 E1 T E. destruct (add_all_spec _ _ _ B1 E) as (A1 & A2 & A3).
  assert (T0 : b_time b1 = 0) by (rewrite A2; exact B2).
  assert (C0 : b_capacity b1 = b_capacity b) by (rewrite A2; reflexivity).
  pose proof (div_mono _ _ (proj1 T)) as DM.
  rewrite (end_time0 b1 t' T0) by lia. cbn [b_capacity]. rewrite C0. split; [|lia]. split.
  - rewrite <- C0, <- (end_time0 b1 t' T0) by lia. apply end_ok. exact A1.
  - split; [reflexivity|]. cbn [b_capacity b_frames]. intros i Hi.
    assert (0 <= b_capacity b) by apply B1.
    rewrite A3 by lia. rewrite B3 by lia. rewrite (pulses_far _ (e + 1048576)); [reflexivity| |].
    + unfold local_pulses. apply Forall_map. eapply Forall_impl; [|exact TL]. intros [t p] Ht. cbn [fst snd] in *. rewrite B2, Z.add_0_l, u32_small by lia. lia.
    + assert ((e + 1048576 - 1) / 1048576 <= e / 1048576 + 1) by (Z.to_euclidean_division_equations; lia). lia.
Qed.

(** The late buffer has [a] frames more; reading them gives [s] and leads to the early buffer. *)
Definition rel (a : Z) (s : list Z) (bL bE : buffer) : Prop :=
  buffer_ok bL /\ buffer_ok bE /\ b_time bL = 0 /\ b_time bE = 0 /\ b_capacity bL = b_capacity bE + a /\ b_pulse bL = b_pulse bE /\
  (forall i, 0 <= i -> cell (b_frames bE) i = cell (b_frames bL) (i + a)) /\
  read_loop (firstn (Z.to_nat a) (b_frames bL)) (b_accum bL) = Ok (b_accum bE, s).

Definition both {A B} (R : A -> B -> Prop) (x : res A) (y : res B) : Prop :=
  match x, y with Ok a, Ok b => R a b | Err _, Err _ => True | _, _ => False end.

Lemma both_bind {A B C D} (R : A -> B -> Prop) (S : C -> D -> Prop) x y f g :
  both R x y -> (forall a b, x = Ok a -> y = Ok b -> R a b -> both S (f a) (g b)) -> both S (bind x f) (bind y g).
Proof. destruct x, y; cbn; intros H K; try contradiction; auto. Qed.

Lemma cell_s32 F j : (forall v, In v F -> is_s32 v) -> 0 <= j -> is_s32 (cell F j).
Proof.
  intros H J. destruct (Z.lt_ge_cases j (Z.of_nat (length F))) as [L|L].
  - apply H, cell_In. lia.
  - unfold cell. rewrite nth_overflow by lia. unfold is_s32. lia.
Qed.

Lemma pulse_shift K T p a j : pulse_at K (T + a * 1048576) p (j + a) = pulse_at K T p j.
Proof.
  unfold pulse_at. cbv zeta. rewrite div_add, Z.mod_add by lia.
  replace (T / 1048576 + a <=? j + a) with (T / 1048576 <=? j) by lia.
  replace (j + a <? T / 1048576 + a + 32) with (j <? T / 1048576 + 32) by lia.
  replace (j + a - (T / 1048576 + a)) with (j - T / 1048576) by lia. reflexivity.
Qed.

Lemma pulse_before K T p a j : 0 <= T -> j < a -> pulse_at K (T + a * 1048576) p j = 0.
Proof.
  intros HT L. unfold pulse_at. cbv zeta. rewrite div_add. assert (0 <= T / 1048576) by (Z.to_euclidean_division_equations; lia).
  replace (T / 1048576 + a <=? j) with false by lia. reflexivity.
Qed.

Lemma add_pulse_rel a s bL bE t p : rel a s bL bE -> 0 <= a -> 0 <= t -> t + a * 1048576 < 4294967296 ->
  both (rel a s) (BKBufferAddPulse bL (t + a * 1048576) p) (BKBufferAddPulse bE t p).
Proof.
  intros (B1 & B2 & B3 & B4 & B5 & B6 & B7 & B8) A T TL.
  pose proof (add_pulse_ok bL (t + a * 1048576) p) as OL. pose proof (add_pulse_ok bE t p) as OE.
  destruct (add_pulse_spec bL (t + a * 1048576) p B1) as [(FL & L1 & L2 & L3 & L4)|(L1 & jL & L2 & L3)];
    destruct (add_pulse_spec bE t p B2) as [(FE & E1 & E2 & E3 & E4)|(E1 & jE & E2 & E3)]; rewrite L1, E1 in *; cbn [both].
  all: rewrite ?B3, ?B4, ?Z.add_0_l, ?u32_small in * by lia.
  - specialize (OL _ B1 eq_refl). specialize (OE _ B2 eq_refl).
    unfold rel. split; [exact OL|]. split; [exact OE|]. cbn [with_frames b_time b_capacity b_pulse b_frames b_accum].
    split; [exact B3|]. split; [exact B4|]. split; [exact B5|]. split; [exact B6|]. split.
    + intros i Hi. rewrite E4, L4 by lia. rewrite B7, B6, pulse_shift by lia. reflexivity.
    + rewrite <- B8. f_equal. apply list_eq_nth.
      * rewrite !firstn_length, L2. reflexivity.
      * intros i. destruct (Nat.lt_ge_cases i (Z.to_nat a)) as [Li|Li].
        -- rewrite !nth_firstn_lt by exact Li. specialize (L4 (Z.of_nat i) ltac:(lia)). unfold cell at 1 2 in L4. rewrite Nat2Z.id in L4.
           rewrite L4, pulse_before by lia. lia.
        -- rewrite !nth_overflow; [reflexivity| |]; rewrite firstn_length; lia.
  - apply E3. rewrite B7 by lia. rewrite <- B6, <- (pulse_shift _ t _ a), <- L4 by lia. apply cell_s32; [exact L3|lia].
  - apply L3. destruct (Z.lt_ge_cases jL a) as [J|J].
    + rewrite pulse_before by lia. rewrite Z.add_0_r. apply cell_s32; [apply B1|lia].
    + replace jL with (jL - a + a) by lia. rewrite pulse_shift, <- B7, B6, <- E4 by lia. apply cell_s32; [exact E3|lia].
  - exact I.
Qed.

Lemma add_all_rel a s hi : forall l bL bE, rel a s bL bE -> 0 <= a -> timed 0 hi l -> hi + a * 1048576 <= 4294967296 ->
  both (rel a s) (add_all bL (shl (a * 1048576) l)) (add_all bE l).
Proof.
  induction l as [|[t p] l IH]; intros bL bE R A T B; cbn [shl map add_all fst snd]; [exact R|].
  inversion T as [|x y Ht T']; subst. cbn [fst] in Ht.
  eapply both_bind; [apply add_pulse_rel; [exact R|lia|lia|lia]|]. intros bL' bE' _ _ R'. change (map _ l) with (shl (a * 1048576) l).
  apply IH; assumption.
Qed.

Lemma end_rel a s bL bE t : rel a s bL bE -> 0 <= a -> 0 <= t -> t + a * 1048576 < 4294967296 ->
  rel a s (BKBufferEnd bL (t + a * 1048576)) (BKBufferEnd bE t).
Proof.
  intros (B1 & B2 & B3 & B4 & B5 & B6 & B7 & B8) A T TL. unfold rel.
  split; [apply end_ok; exact B1|]. split; [apply end_ok; exact B2|].
  rewrite !end_time0 by (assumption || lia). cbn [b_time b_capacity b_pulse b_frames b_accum].
  split; [reflexivity|]. split; [reflexivity|]. split; [rewrite div_add; lia|]. split; [exact B6|]. split; assumption.
Qed.

Inductive rels (a : Z) : list (list Z) -> list buffer -> list buffer -> Prop :=
| rels_nil : rels a [] [] []
| rels_cons s bL bE ss chL chE : rel a s bL bE -> rels a ss chL chE -> rels a (s :: ss) (bL :: chL) (bE :: chE).

Lemma hd_timed lo hi ls : Forall (timed lo hi) ls -> timed lo hi (hd [] ls) /\ Forall (timed lo hi) (tl ls).
Proof. intros H. destruct H; cbn; split; auto; constructor. Qed.

Lemma hd_shl d ls : hd [] (map (shl d) ls) = shl d (hd [] ls).
Proof. destruct ls; reflexivity. Qed.
Lemma tl_shl d ls : tl (map (shl d) ls) = map (shl d) (tl ls).
Proof. destruct ls; reflexivity. Qed.

Lemma mix_rel a hi time : forall ss chL chE ls, rels a ss chL chE -> 0 <= a -> Forall (timed 0 hi) ls -> hi + a * 1048576 <= 4294967296 ->
  0 <= time -> time + a * 1048576 < 4294967296 ->
  both (rels a ss) (mix_channels chL (map (shl (a * 1048576)) ls) (time + a * 1048576)) (mix_channels chE ls time).
Proof.
  intros ss chL chE ls R. revert ls. induction R as [|s bL bE ss chL chE R1 R IH]; intros ls A T B T0 T1; cbn [mix_channels].
  - constructor.
  - destruct (hd_timed _ _ _ T) as [T2 T3].
    eapply both_bind. { rewrite hd_shl. apply (add_all_rel a s hi); assumption. } intros bL' bE' _ _ R2.
    eapply both_bind. { rewrite tl_shl. apply IH; assumption. } intros cL cE _ _ R3. cbn [both]. constructor; [apply end_rel; assumption|exact R3].
Qed.

Lemma mix_fine e time : forall chs ls chs', Forall fine chs -> Forall (timed 0 (e + 1048576)) ls -> 0 <= e -> e + 1048576 < 4294967296 -> e <= time < 4294967296 ->
  mix_channels chs ls time = Ok chs' ->
  Forall fine chs' /\ Forall (fun b => e / 1048576 <= b_capacity b) chs' /\ Forall2 (fun b b' => b_capacity b <= b_capacity b') chs chs'.
Proof.
  intros chs ls chs' H. revert ls chs'. induction H as [|b chs Hb H IH]; intros ls chs' T E0 E1 TT E; cbn [mix_channels] in E.
  - assert (chs' = []) as -> by congruence. repeat split; constructor.
  - binv E b1 A1. binv E chs1 A2. assert (chs' = BKBufferEnd b1 time :: chs1) as -> by congruence. destruct (hd_timed _ _ _ T) as [T2 T3].
    destruct (add_all_fine _ _ _ e time Hb T2 E0 E1 TT A1) as (F1 & F2 & F3). destruct (IH _ _ T3 E0 E1 TT A2) as (G1 & G2 & G3).
    split; [constructor; assumption|]. split; [constructor; assumption|]. constructor; assumption.
Qed.

(** The first [a] frames stay as they are. *)
Definition front (a : Z) (b b' : buffer) : Prop := b_accum b' = b_accum b /\ firstn (Z.to_nat a) (b_frames b') = firstn (Z.to_nat a) (b_frames b).

Lemma pulses_before K lo : forall l i, Forall (fun p : Z * Z => lo <= fst p) l -> i < lo / 1048576 -> pulses_at K l i = 0.
Proof.
  induction l as [|[t p] l IH]; intros i H L; [reflexivity|]. inversion H; subst. cbn [fst] in *. rewrite pulses_at_cons, IH by assumption.
  unfold pulse_at. pose proof (div_mono lo t ltac:(lia)). replace (t / 1048576 <=? i) with false by lia. reflexivity.
Qed.

Lemma mix_front a lo hi time : forall chs ls chs', Forall fine chs -> Forall (timed lo hi) ls -> 0 <= lo -> hi <= 4294967296 -> a * 1048576 <= lo ->
  mix_channels chs ls time = Ok chs' -> Forall2 (front a) chs chs'.
Proof.
  intros chs ls chs' H. revert ls chs'. induction H as [|b chs (B1 & B2 & B3) H IH]; intros ls chs' T L0 H0 A E; cbn [mix_channels] in E.
  - assert (chs' = []) as -> by congruence. constructor.
  - binv E b1 A1. binv E chs1 A2. assert (chs' = BKBufferEnd b1 time :: chs1) as -> by congruence. destruct (hd_timed _ _ _ T) as [T2 T3].
    constructor; [|apply (IH _ _ T3 L0 H0 A A2)]. destruct (add_all_spec _ _ _ B1 A1) as (C1 & C2 & C3).
    split; [rewrite C2; reflexivity|]. change (b_frames (BKBufferEnd b1 time)) with (b_frames b1).
    assert (LE : length (b_frames b1) = length (b_frames b)) by (transitivity BK_BUFFER_CAPACITY; [apply C1|symmetry; apply B1]).
    apply list_eq_nth; [rewrite !firstn_length, LE; reflexivity|]. intros i. destruct (Nat.lt_ge_cases i (Z.to_nat a)) as [Li|Li].
    + rewrite !nth_firstn_lt by exact Li. specialize (C3 (Z.of_nat i) ltac:(lia)). unfold cell at 1 2 in C3. rewrite Nat2Z.id in C3.
      rewrite C3, (pulses_before _ lo); [lia| |].
      * unfold local_pulses. apply Forall_map. eapply Forall_impl; [|exact T2]. intros [t p] Ht. cbn [fst snd] in *. rewrite B2, Z.add_0_l, u32_small by lia. lia.
      * pose proof (div_mono _ _ A). rewrite Z.div_mul in * by lia. lia.
    + rewrite !nth_overflow; [reflexivity| |]; rewrite firstn_length; lia.
Qed.

Lemma front_refl a l : Forall2 (front a) l l.
Proof. induction l; constructor; [split; reflexivity|assumption]. Qed.
Lemma front_trans a l1 l2 l3 : Forall2 (front a) l1 l2 -> Forall2 (front a) l2 l3 -> Forall2 (front a) l1 l3.
Proof.
  intros H. revert l3. induction H as [|x y l l' [H1 H2] H IH]; intros l3 K; inversion K; subst; constructor.
  - destruct H4 as [K1 K2]. split; congruence.
  - apply IH. assumption.
Qed.

Lemma timed_zero t0 hi ls : 0 <= t0 -> Forall (timed t0 hi) ls -> Forall (timed 0 hi) ls.
Proof. intros T H. eapply Forall_impl; [|exact H]. intros x. apply timed_weak; lia. Qed.

(** ** Tracks *)

Definition track_good (time : Z) (t : track) : Prop := Pt t /\ time <= un_time (tr_unit t) <= time + 2147483648.
Definition good (time : Z) (ts : list (Z * track)) : Prop := Forall (fun it => track_good time (snd it)) ts.

Lemma kept_good time ts ts' : kept ts ts' -> good time ts -> good time ts'.
Proof.
  intros K. induction K as [|[i t] [j t'] ts ts' (K1 & K2 & K3) K IH]; intros G; [constructor|]. inversion G as [|x y [G1 G2] G']; subst. cbn [snd] in *.
  constructor; [|apply IH; exact G']. cbn [snd]. split; [apply K3; exact G1|rewrite K2; exact G2].
Qed.

Lemma track_run_times fuel t e t' ls t0 : track_good t0 t -> 0 <= t0 <= e -> e + 1048576 < 2147483648 -> BKTrackRun fuel t e = Ok (t', ls) ->
  track_good e t' /\ Forall (timed t0 (e + 1048576)) ls.
Proof.
  intros [P T] T0 B E. unfold BKTrackRun in E. binv E t1 E1. binv E r E2. destruct r as [u l].
  assert (t' = t_unit t1 u) as -> by congruence. assert (ls = l) as -> by congruence.
  pose proof (update_keep t P) as K. rewrite E1 in K. cbn [holds] in K. pose proof (update_time _ _ E1) as TM.
  destruct (run_times fuel (tr_unit t1) e u l K ltac:(lia) ltac:(lia) B E2) as (R1 & R2 & R3 & R4).
  split.
  - split; [exact R3|]. cbn [t_unit tr_unit]. lia.
  - eapply Forall_impl; [|exact R4]. intros x. apply timed_weak; lia.
Qed.

Lemma track_run_shift d fuel t e t0 : track_good t0 t -> 0 <= t0 <= e -> 0 <= d -> e + d + 1048576 < 2147483648 ->
  BKTrackRun fuel (sh d t) (e + d) = rmap (fun '(t', ls) => (sh d t', map (shl d) ls)) (BKTrackRun fuel t e).
Proof.
  intros [P T] T0 D B. unfold BKTrackRun, sh at 1. rewrite (update_tm _ _ t) by reflexivity.
  destruct (BKTrackUpdateUnit t) as [t1|] eqn:E1; [|reflexivity]. cbn [rmap bind].
  pose proof (update_keep t P) as K. rewrite E1 in K. cbn [holds] in K. pose proof (update_time _ _ E1) as TM.
  change (tr_unit (tm (un_time (tr_unit t) + d) t1)) with (um (un_time (tr_unit t) + d) (tr_unit t1)). rewrite <- TM.
  rewrite run_shift by (exact K || lia). destruct (BKUnitRun fuel (tr_unit t1) e) as [[u l]|]; reflexivity.
Qed.

Lemma run_tracks_fine fuel e : 0 <= e -> e + 1048576 < 2147483648 -> forall ts chs ts' chs' t0, good t0 ts -> 0 <= t0 <= e -> Forall fine chs ->
  run_tracks fuel ts chs e = Ok (ts', chs') ->
  good e ts' /\ Forall fine chs' /\ Forall2 (fun b b' => b_capacity b <= b_capacity b') chs chs' /\
  (ts <> [] -> Forall (fun b => e / 1048576 <= b_capacity b) chs') /\ map fst ts' = map fst ts.
Proof.
  intros E0 B. induction ts as [|[i t] ts IH]; intros chs ts' chs' t0 G T0 F E; cbn [run_tracks] in E.
  - inversion E; subst. split; [constructor|]. split; [exact F|]. split; [|split; [congruence|reflexivity]].
    clear. induction chs'; constructor; [lia|assumption].
  - inversion G as [|x y G1 G']; subst. cbn [snd] in G1. binv E r E1. destruct r as [t1 ls]. binv E chs1 E2. binv E r E3. destruct r as [ts2 chs2].
    assert (ts' = (i, t1) :: ts2) as -> by congruence. assert (chs' = chs2) as -> by congruence.
    destruct (track_run_times _ _ _ _ _ _ G1 T0 B E1) as [R1 R2]. destruct R1 as [R0 R1]. apply (timed_zero t0) in R2; [|lia].
    destruct (mix_fine e (un_time (tr_unit t1)) _ _ _ F R2 E0 ltac:(lia) ltac:(lia) E2) as (M1 & M2 & M3).
    destruct (IH _ _ _ _ G' T0 M1 E3) as (I1 & I2 & I3 & I4 & I5).
    split; [constructor; [split; assumption|exact I1]|]. split; [exact I2|]. split; [|split; [|cbn; congruence]].
    + clear - M3 I3. revert chs2 I3. induction M3 as [|x y l l' H M3 IH]; intros chs2 I3; inversion I3; subst; constructor; [lia|]. apply IH. assumption.
    + intros _. clear - M2 I3. revert chs2 I3. induction M2 as [|x l H M2 IH]; intros chs2 I3; inversion I3; subst; constructor; [lia|]. apply IH. assumption.
Qed.

Lemma run_tracks_front a fuel e : 0 <= e -> e + 1048576 < 2147483648 -> forall ts chs ts' chs' t0, good t0 ts -> 0 <= t0 <= e -> Forall fine chs ->
  a * 1048576 <= t0 -> run_tracks fuel ts chs e = Ok (ts', chs') -> Forall2 (front a) chs chs'.
Proof.
  intros E0 B. induction ts as [|[i t] ts IH]; intros chs ts' chs' t0 G T0 F A E; cbn [run_tracks] in E.
  - inversion E; subst. apply front_refl.
  - inversion G as [|x y G1 G']; subst. cbn [snd] in G1. binv E r E1. destruct r as [t1 ls]. binv E chs1 E2. binv E r E3. destruct r as [ts2 chs2].
    assert (chs' = chs2) as -> by congruence.
    destruct (track_run_times _ _ _ _ _ _ G1 T0 B E1) as [[R0 R1] R2].
    assert (M := mix_front a t0 (e + 1048576) _ _ _ _ F R2 ltac:(lia) ltac:(lia) A E2). apply (timed_zero t0) in R2; [|lia].
    destruct (mix_fine e (un_time (tr_unit t1)) _ _ _ F R2 E0 ltac:(lia) ltac:(lia) E2) as (M1 & _).
    eapply front_trans; [exact M|]. apply (IH _ _ _ _ G' T0 M1 A E3).
Qed.

Lemma run_tracks_rel a fuel e : 0 <= a -> 0 <= e -> e + a * 1048576 + 1048576 < 2147483648 -> forall ts chL chE ss t0, good t0 ts -> 0 <= t0 <= e ->
  rels a ss chL chE ->
  both (fun p q => fst p = shs (a * 1048576) (fst q) /\ rels a ss (snd p) (snd q))
       (run_tracks fuel (shs (a * 1048576) ts) chL (e + a * 1048576)) (run_tracks fuel ts chE e).
Proof.
  intros A E0 B. induction ts as [|[i t] ts IH]; intros chL chE ss t0 G T0 R; cbn [run_tracks shs map fst snd].
  - split; [reflexivity|exact R].
  - inversion G as [|x y G1 G']; subst. cbn [snd] in G1. rewrite (track_run_shift (a * 1048576) fuel t e t0) by (assumption || lia).
    destruct (BKTrackRun fuel t e) as [[t1 ls]|] eqn:E1; [|exact I]. cbn [rmap bind].
    destruct (track_run_times _ _ _ _ _ _ G1 T0 ltac:(lia) E1) as [[R0 R1] R2]. apply (timed_zero t0) in R2; [|lia].
    change (un_time (tr_unit (sh (a * 1048576) t1))) with (un_time (tr_unit t1) + a * 1048576).
    eapply both_bind. { apply (mix_rel a (e + 1048576) _ ss); [exact R|lia|exact R2|lia|lia|lia]. } intros cL cE _ _ R3.
    eapply both_bind. { change (map _ ts) with (shs (a * 1048576) ts). apply (IH _ _ _ _ G' T0 R3). }
    intros [tL cL2] [tE cE2] _ _ [R4 R5]. cbn [fst snd both] in *. subst tL. split; [reflexivity|exact R5].
Qed.
