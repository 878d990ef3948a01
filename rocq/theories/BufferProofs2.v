(** Property lemmas of the channel buffer. *)
From Verif Require Import CIntFacts Kernels BufferModel BufferSpec BufferProofs.
From Coq Require Import Permutation.

(** * C02: mixing *)
Definition local_pulses (b : buffer) (l : list (Z * Z)) : list (Z * Z) :=
  map (fun tp => (u32 (b_time b + fst tp), s16 (snd tp))) l.

Lemma with_frames_id b : with_frames b (b_frames b) = b.
Proof. destruct b; reflexivity. Qed.

Lemma pulses_at_cons K t p l j : pulses_at K ((t, p) :: l) j = pulse_at K t p j + pulses_at K l j.
Proof. reflexivity. Qed.

Lemma pulses_at_app K l l' j : pulses_at K (l ++ l') j = pulses_at K l j + pulses_at K l' j.
Proof.
  induction l as [|[t p] l IH]; [reflexivity|].
  change (((t, p) :: l) ++ l') with ((t, p) :: (l ++ l')). rewrite !pulses_at_cons, IH. lia.
Qed.

Lemma pulses_at_perm K l l' j : Permutation l l' -> pulses_at K l j = pulses_at K l' j.
Proof.
  induction 1 as [|[t p] l l' P IH|[t p] [t' p'] l|l l' l'' P1 IH1 P2 IH2]; rewrite ?pulses_at_cons in *; lia.
Qed.

Lemma add_all_spec l : forall b b', buffer_ok b -> add_all b l = Ok b' ->
  buffer_ok b' /\ b' = with_frames b (b_frames b') /\
  forall j, 0 <= j -> cell (b_frames b') j
                      = cell (b_frames b) j + pulses_at (b_pulse b) (local_pulses b l) j.
Proof.
  induction l as [|[t p] l IH]; intros b b' H E; cbn [add_all] in E.
  - inversion E; subst. split; [exact H|]. split; [symmetry; apply with_frames_id|].
    intros j Hj. unfold pulses_at; cbn. lia.
  - apply bind_ok in E as (b1 & E1 & E2).
    destruct (add_pulse_spec b t p H) as [(F & K1 & K2 & K3 & K4)|(K1 & _)];
      rewrite K1 in E1; inversion E1; subst b1.
    assert (H1 := add_pulse_ok _ _ _ _ H K1).
    destruct (IH _ _ H1 E2) as (G1 & G2 & G3).
    split; [exact G1|]. split; [exact G2|].
    intros j Hj. rewrite G3 by lia.
    unfold local_pulses. cbn [map]. rewrite pulses_at_cons.
    cbn [with_frames b_frames b_pulse b_time fst snd]. rewrite K4 by lia. lia.
Qed.

Lemma frames_ext F F' : length F = BK_BUFFER_CAPACITY -> length F' = BK_BUFFER_CAPACITY ->
  (forall j, 0 <= j -> cell F j = cell F' j) -> F = F'.
Proof.
  intros H1 H2 H. apply list_eq_nth; [congruence|]. intros i.
  specialize (H (Z.of_nat i)). unfold cell in H. rewrite Nat2Z.id in H. apply H. lia.
Qed.

Lemma mix_order b l l' b1 b2 :
  buffer_ok b -> Permutation l l' -> add_all b l = Ok b1 -> add_all b l' = Ok b2 -> b1 = b2.
Proof.
  intros H P E1 E2.
  destruct (add_all_spec _ _ _ H E1) as (O1 & W1 & C1).
  destruct (add_all_spec _ _ _ H E2) as (O2 & W2 & C2).
  rewrite W1, W2. f_equal.
  apply frames_ext; [apply O1|apply O2|].
  intros j Hj. rewrite C1, C2 by lia. f_equal. apply pulses_at_perm.
  unfold local_pulses. apply Permutation_map, P.
Qed.

Lemma pulses_abs_cons K t p l j :
  pulses_abs K ((t, p) :: l) j = Z.abs (pulse_at K t p j) + pulses_abs K l j.
Proof. reflexivity. Qed.

Lemma pulses_abs_nonneg K l j : 0 <= pulses_abs K l j.
Proof. induction l as [|[t p] l IH]; [unfold pulses_abs; cbn; lia|]. rewrite pulses_abs_cons. lia. Qed.

Lemma mix_defined l : forall b, buffer_ok b ->
  (forall j, 0 <= j < 4129 ->
     Z.abs (cell (b_frames b) j) + pulses_abs (b_pulse b) (local_pulses b l) j <= 2147483647) ->
  exists b', add_all b l = Ok b'.
Proof.
  induction l as [|[t p] l IH]; intros b H B; cbn [add_all]; [eauto|].
  assert (B' : forall j, 0 <= j < 4129 ->
     Z.abs (cell (b_frames b) j) + (Z.abs (pulse_at (b_pulse b) (u32 (b_time b + t)) (s16 p) j) +
       pulses_abs (b_pulse b) (local_pulses b l) j) <= 2147483647).
  { intros j Hj. exact (B j Hj). }
  destruct (add_pulse_spec b t p H) as [(F & K1 & K2 & K3 & K4)|(K1 & j & K2 & K3)].
  - rewrite K1. cbn [bind]. apply IH.
    + exact (add_pulse_ok _ _ _ _ H K1).
    + intros j Hj. cbn [with_frames b_frames b_pulse]. rewrite K4 by lia.
      specialize (B' j Hj).
      change (local_pulses (with_frames b F) l) with (local_pulses b l). lia.
  - exfalso. apply K3. specialize (B' j K2).
    pose proof (pulses_abs_nonneg (b_pulse b) (local_pulses b l) j). unfold is_s32. lia.
Qed.

Lemma pulse_at_add K T p q j : pulse_at K T (p + q) j = pulse_at K T p j + pulse_at K T q j.
Proof. unfold pulse_at. destruct (_ && _); lia. Qed.

Lemma mix_linear b t p q b1 b2 :
  buffer_ok b -> is_s16 p -> is_s16 q -> is_s16 (p + q) ->
  add_all b [(t, p); (t, q)] = Ok b1 -> BKBufferAddPulse b t (p + q) = Ok b2 -> b1 = b2.
Proof.
  intros H Hp Hq Hpq E1 E2.
  assert (E3 : add_all b [(t, p + q)] = Ok b2) by (cbn [add_all]; rewrite E2; reflexivity).
  destruct (add_all_spec _ _ _ H E1) as (O1 & W1 & C1).
  destruct (add_all_spec _ _ _ H E3) as (O2 & W2 & C2).
  rewrite W1, W2. f_equal.
  apply frames_ext; [apply O1|apply O2|].
  intros j Hj. rewrite C1, C2 by lia. unfold local_pulses, pulses_at; cbn [map fst snd zsum fold_right].
  rewrite !s16_id by assumption. rewrite pulse_at_add. lia.
Qed.

(** * C03: chunked reads *)
Lemma firstn_read_frames F s c m :
  length F = BK_BUFFER_CAPACITY -> 0 <= s <= c -> c <= 4095 -> 0 <= m <= c - s ->
  firstn (Z.to_nat m) (read_frames F s c) = firstn (Z.to_nat m) (skipn (Z.to_nat s) F).
Proof.
  intros H1 H2 H3 H4. pose proof capacity_val. unfold read_frames.
  rewrite firstn_app, firstn_firstn.
  replace (Init.Nat.min (Z.to_nat m) (Z.to_nat (c + 33 - s))) with (Z.to_nat m) by lia.
  rewrite firstn_length, skipn_length.
  match goal with |- _ ++ firstn ?n _ = _ => replace n with 0%nat by lia end.
  cbn [firstn]. apply app_nil_r.
Qed.

Lemma read_frames_twice F s m c :
  length F = BK_BUFFER_CAPACITY -> 0 <= s -> 0 <= m -> s + m <= c -> c <= 4095 ->
  read_frames (read_frames F s c) m (c - s) = read_frames F (s + m) c.
Proof.
  intros H1 H2 H3 H4 H5.
  assert (L := read_frames_length F s c H1 ltac:(lia) H5).
  apply frames_ext; try (apply read_frames_length; lia).
  intros j Hj. rewrite !cell_read_frames by lia.
  destruct (j <? c - s + 33 - m) eqn:E1.
  - replace (j + m <? c + 33 - s) with true by lia.
    replace (j <? c + 33 - (s + m)) with true by lia. f_equal. lia.
  - replace (j <? c + 33 - (s + m)) with false by lia.
    destruct (j <? c - s + 33) eqn:E2.
    + replace (j <? c + 33) with true by lia. reflexivity.
    + replace (j <? c + 33 - s) with false by lia. reflexivity.
Qed.

Lemma read_split b n m : buffer_ok b -> 0 <= n -> 0 <= m ->
  (let* r1 := BKBufferRead b n in
   let* r2 := BKBufferRead (fst r1) m in
   Ok (fst r2, snd r1 ++ snd r2)) = BKBufferRead b (n + m).
Proof.
  intros H Hn Hm.
  destruct (BKBufferRead b n) as [[b1 s1]|e] eqn:E1.
  - assert (O1 := read_ok _ _ _ _ H Hn E1). cbn [bind fst snd].
    rewrite (read_unfold b1) by assumption. rewrite (read_unfold b (n + m)) by (assumption || lia).
    rewrite (read_unfold b) in E1 by assumption.
    destruct H as (H1 & H2 & H3 & H4 & H5 & H6). cbv zeta in *.
    set (s := BKMin n (b_capacity b)) in *.
    assert (Hs : 0 <= s <= b_capacity b) by (unfold s, BKMin; destruct (n <? b_capacity b) eqn:?; lia).
    apply bind_ok in E1 as ([a sm] & R1 & E1). cbn [fst snd] in E1. inversion E1; subst b1 s1. clear E1.
    cbn [b_capacity b_frames b_accum b_time b_pulse].
    set (s2 := BKMin m (b_capacity b - s)).
    assert (Hs2 : 0 <= s2 <= b_capacity b - s) by (unfold s2, BKMin; destruct (m <? _) eqn:?; lia).
    assert (Hsum : BKMin (n + m) (b_capacity b) = s + s2).
    { unfold s2, s, BKMin. destruct (n + m <? b_capacity b) eqn:?; destruct (n <? b_capacity b) eqn:?;
      destruct (m <? _) eqn:?; lia. }
    rewrite Hsum. rewrite firstn_read_frames by lia.
    rewrite Z2Nat.inj_add by lia. rewrite firstn_add, read_loop_app, R1. cbn [bind fst snd].
    destruct (read_loop (firstn (Z.to_nat s2) (skipn (Z.to_nat s) (b_frames b))) a) as [[a2 sm2]|e];
      cbn [bind fst snd]; [|reflexivity].
    rewrite read_frames_twice by lia. do 3 f_equal; [|lia].
    unfold u32. lia.
  - cbn [bind]. assert (e = EOverflow) by exact (read_err b n e H Hn E1). subst e.
    rewrite (read_unfold b (n + m)) by (assumption || lia).
    rewrite (read_unfold b) in E1 by assumption. cbv zeta in *.
    destruct H as (H1 & H2 & H3 & H4 & H5 & H6).
    set (s := BKMin n (b_capacity b)) in *.
    set (s3 := BKMin (n + m) (b_capacity b)).
    assert (Hs : 0 <= s <= s3) by
      (unfold s, s3, BKMin; destruct (n <? b_capacity b) eqn:?; destruct (n + m <? b_capacity b) eqn:?; lia).
    replace (Z.to_nat s3) with (Z.to_nat s + Z.to_nat (s3 - s))%nat by lia.
    rewrite firstn_add, read_loop_app.
    destruct (read_loop (firstn (Z.to_nat s) (b_frames b)) (b_accum b)) as [[a sm]|e];
      cbn [bind fst snd] in *; [discriminate|]. congruence.
Qed.

Fixpoint reads (b : buffer) (ns : list Z) : res (buffer * list Z) :=
  match ns with
  | [] => Ok (b, [])
  | n :: ns => let* r := BKBufferRead b n in
               let* r' := reads (fst r) ns in
               Ok (fst r', snd r ++ snd r')
  end.

Lemma read_zero b : buffer_ok b -> BKBufferRead b 0 = Ok (b, []).
Proof.
  intros H. assert (K := H). destruct H as (H1 & H2 & H3 & H4 & H5 & H6).
  rewrite read_unfold by (assumption || lia). cbv zeta.
  replace (BKMin 0 (b_capacity b)) with 0 by (unfold BKMin; destruct (0 <? b_capacity b) eqn:?; lia).
  cbn [Z.to_nat firstn read_loop bind fst snd]. rewrite Z.mul_0_l, !Z.sub_0_r, u32_id by lia.
  replace (read_frames (b_frames b) 0 (b_capacity b)) with (b_frames b).
  { destruct b; reflexivity. }
  pose proof capacity_val.
  unfold read_frames. cbn [Z.to_nat skipn repeat app]. rewrite Z.sub_0_r.
  symmetry. apply firstn_skipn.
Qed.

Lemma reads_total ns : forall b, buffer_ok b -> Forall (fun n => 0 <= n) ns ->
  reads b ns = BKBufferRead b (zsum ns).
Proof.
  induction ns as [|n ns IH]; intros b H N; cbn [reads zsum fold_right].
  - symmetry. apply read_zero, H.
  - inversion N as [|x l N1 N2]; subst. fold (zsum ns).
    assert (0 <= zsum ns) by (clear -N2; unfold zsum; induction N2; cbn [fold_right]; lia).
    rewrite <- read_split by assumption.
    destruct (BKBufferRead b n) as [[b1 s1]|e] eqn:E1; cbn [bind fst snd]; [|reflexivity].
    rewrite IH; [reflexivity| |assumption]. exact (read_ok _ _ _ _ H N1 E1).
Qed.

(** * C04: saturation *)
Lemma out_sample_saturate a : is_s32 a -> out_sample a = saturate a.
Proof.
  intros H. unfold is_s32 in H. unfold out_sample, saturate.
  change (32 - 16 - 2) with 14. rewrite shiftr_div by lia. change (2 ^ 14) with 16384.
  set (amp := a / 16384). assert (-131072 <= amp <= 131071) by (unfold amp; lia).
  rewrite shiftr_div by lia. change (2 ^ 16) with 65536.
  destruct (Z.eqb_spec (s16 amp) amp) as [E|E].
  - assert (K := s16_range amp).
    replace (amp >? 65535) with false by lia. replace (amp >? 32767) with false by lia.
    replace (amp <? -65536) with false by lia. replace (amp <? -32768) with false by lia. exact E.
  - assert (N : ~ (-32768 <= amp <= 32767)) by (intros K; apply E, s16_id, K).
    assert (C : amp / 65536 = 1 \/ amp / 65536 = 0 \/ amp / 65536 = -1 \/ amp / 65536 = -2) by lia.
    destruct C as [C|[C|[C|C]]]; rewrite C.
    + replace (amp >? 65535) with true by lia. vm_compute. reflexivity.
    + replace (amp >? 65535) with false by lia. replace (amp >? 32767) with true by lia. vm_compute. reflexivity.
    + replace (amp >? 65535) with false by lia. replace (amp >? 32767) with false by lia.
      replace (amp <? -65536) with false by lia. replace (amp <? -32768) with true by lia. vm_compute. reflexivity.
    + replace (amp >? 65535) with false by lia. replace (amp >? 32767) with false by lia.
      replace (amp <? -65536) with true by lia. vm_compute. reflexivity.
Qed.

Lemma map_saturate l : Forall is_s32 l -> map out_sample l = map saturate l.
Proof. induction 1; cbn [map]; [reflexivity|]. f_equal; [apply out_sample_saturate|]; assumption. Qed.

Lemma saturate_facts a :
  let amp := a / 16384 in
  (is_s16 amp -> saturate a = amp) /\
  (amp > 32767 -> 32766 <= saturate a <= 32767) /\
  (amp < -32768 -> -32768 <= saturate a <= -32767) /\
  is_s16 (saturate a).
Proof.
  cbv zeta. unfold saturate, is_s16.
  destruct (a / 16384 >? 65535) eqn:?; [lia|].
  destruct (a / 16384 >? 32767) eqn:?; [lia|].
  destruct (a / 16384 <? -65536) eqn:?; [lia|].
  destruct (a / 16384 <? -32768) eqn:?; lia.
Qed.

Lemma integrate_length d : forall a, length (integrate a d) = length d.
Proof. induction d; intros; cbn [integrate length]; auto. Qed.

(** Samples delivered by a read. *)
Lemma read_samples b n b' s : buffer_ok b -> 0 <= n -> BKBufferRead b n = Ok (b', s) ->
  s = map saturate (integrate (b_accum b) (firstn (Z.to_nat (BKMin n (b_capacity b))) (b_frames b))) /\
  Z.of_nat (length s) = BKMin n (b_capacity b) /\
  b_accum b' = integrate_end (b_accum b) (firstn (Z.to_nat (BKMin n (b_capacity b))) (b_frames b)).
Proof.
  intros H Hn E. rewrite read_unfold in E by assumption. cbv zeta in E.
  destruct H as (H1 & H2 & H3 & H4 & H5 & H6). pose proof capacity_val.
  destruct (read_loop_spec (firstn (Z.to_nat (BKMin n (b_capacity b))) (b_frames b)) _ H5)
    as [(a' & E1 & E2 & E3 & E4)|(E1 & _)]; rewrite E1 in E; cbn [bind fst snd] in E; inversion E; subst b' s.
  split; [apply map_saturate, E4|]. split; [|exact E2].
  rewrite map_length, integrate_length, firstn_length.
  unfold BKMin in *. destruct (n <? b_capacity b) eqn:?; lia.
Qed.

(** * C05: accounting *)
Definition accountable (b : buffer) : Prop := b_time b <= b_capacity b * 1048576.

Lemma size_eq b : BKBufferSize b = b_time b / 1048576.
Proof. unfold BKBufferSize. apply off_eq. Qed.

Lemma read_account b n b' s : buffer_ok b -> accountable b -> 0 <= n <= BKBufferSize b ->
  BKBufferRead b n = Ok (b', s) ->
  Z.of_nat (length s) = n /\ BKBufferSize b' = BKBufferSize b - n /\ accountable b'.
Proof.
  unfold accountable. rewrite !size_eq. intros H A Hn E.
  destruct (read_samples b n b' s H ltac:(lia) E) as (_ & L & _).
  rewrite read_unfold in E by (assumption || lia). cbv zeta in E.
  apply bind_ok in E as (r & _ & E). inversion E; subst b' s. cbn [b_time b_capacity].
  destruct H as (H1 & H2 & H3 & _).
  assert (M : BKMin n (b_capacity b) = n) by (unfold BKMin; destruct (n <? b_capacity b) eqn:?; lia).
  rewrite M in *. split; [exact L|].
  rewrite u32_id by lia. lia.
Qed.

Lemma init_accountable : accountable BKBufferInit.
Proof. unfold accountable, BKBufferInit; cbn [b_time b_capacity]. lia. Qed.

Lemma shift_accountable b t : buffer_ok b -> accountable (BKBufferShift b t).
Proof.
  intros (H1 & H2 & H3 & _). unfold accountable, BKBufferShift; cbn [b_time b_capacity].
  unfold BK_FINT20_SHIFT. rewrite Z.shiftl_mul_pow2 by lia. change (2 ^ 20) with 1048576.
  rewrite (u32_id (b_capacity b * 1048576)) by lia.
  destruct (u32 (b_time b + t) >? b_capacity b * 1048576) eqn:E.
  - unfold u32. lia.
  - lia.
Qed.

Lemma end_accountable b t : accountable b -> accountable (BKBufferEnd b t).
Proof.
  unfold accountable, BKBufferEnd; cbn [b_time b_capacity]. intros.
  destruct (_ >? b_capacity b) eqn:?; lia.
Qed.

(** Histories in which no read asks for more than the reported size. *)
Definition read_within (b : buffer) (o : bop) : Prop :=
  match o with BRead n => u32 n <= BKBufferSize b | _ => True end.

Fixpoint reads_within (b : buffer) (ops : list bop) : Prop :=
  match ops with
  | [] => True
  | o :: ops => read_within b o /\
                match bstep b o with Ok r => reads_within (fst r) ops | Err _ => True end
  end.

Lemma bstep_accountable b o r : buffer_ok b -> accountable b -> read_within b o ->
  bstep b o = Ok r -> accountable (fst r).
Proof.
  intros H A W E. destruct o; cbn [bstep] in E.
  - apply bind_ok in E as (b' & E1 & E2). inversion E2; subst. cbn [fst].
    destruct (add_pulse_spec b (u32 time) pulse H) as [(F & K1 & _)|(K1 & _)];
      rewrite K1 in E1; inversion E1; subst. exact A.
  - apply bind_ok in E as (b' & E1 & E2). inversion E2; subst. cbn [fst].
    destruct (add_frame_spec b (u32 time) frame H) as [(F & K1 & _)|(K1 & _)];
      rewrite K1 in E1; inversion E1; subst. exact A.
  - inversion E; subst. apply end_accountable, A.
  - inversion E; subst. apply shift_accountable, H.
  - destruct r as [b' s]. cbn [read_within] in W. pose proof (u32_range size).
    eapply read_account; eauto; lia.
  - inversion E; subst. unfold accountable, BKBufferClear; cbn [fst b_time b_capacity]. lia.
  - inversion E; subst. exact A.
Qed.

Lemma bruns_accountable ops : forall b r, buffer_ok b -> accountable b -> reads_within b ops ->
  bruns b ops = Ok r -> accountable (fst r).
Proof.
  induction ops as [|o ops IH]; intros b r H A W E; cbn [bruns reads_within] in *.
  - inversion E; subst. exact A.
  - apply bind_ok in E as (r1 & E1 & E). apply bind_ok in E as (r2 & E2 & E).
    inversion E; subst. cbn [fst]. destruct W as [W1 W2]. rewrite E1 in W2.
    eapply IH; [| |exact W2|exact E2]; [eapply bstep_ok; eauto|].
    eapply bstep_accountable; eauto.
Qed.

(** * C06: gain *)
Definition gain_okb (K : list (list Z)) : bool := forallb (fun row => zsum row =? 32767) K.

Lemma zsum_app l l' : zsum (l ++ l') = zsum l + zsum l'.
Proof. unfold zsum. induction l as [|x l IH]; cbn [app fold_right]; lia. Qed.

Lemma zsum_cells_shift row : forall off (F F' : list Z),
  (length F' = length F)%nat ->
  (off + length row <= length F)%nat ->
  (forall j, nth j F' 0 = nth j F 0 +
     (if (Nat.leb off j && Nat.ltb j (off + length row))%bool then nth (j - off) row 0 else 0)) ->
  zsum F' = zsum F + zsum row.
Proof.
  intros off F; revert off row. induction F as [|x F IH]; intros off row F' L B H.
  - destruct F'; [|discriminate]. destruct row; [|cbn in B; lia]. reflexivity.
  - destruct F' as [|y F']; [discriminate|]. cbn [zsum fold_right]. fold (zsum F) (zsum F').
    destruct off as [|off].
    + destruct row as [|r row].
      * assert (K := H 0%nat). cbn in K.
        rewrite (IH 0%nat [] F').
        { cbn [zsum fold_right]. lia. }
        { injection L; auto. } { cbn; lia. }
        intros j. specialize (H (S j)). cbn [nth] in H. rewrite H.
        cbn [length]. replace (Nat.ltb (S j) (0 + 0)) with false by (symmetry; apply Nat.ltb_ge; lia).
        replace (Nat.ltb j (0 + 0)) with false by (symmetry; apply Nat.ltb_ge; lia).
        rewrite !andb_false_r. reflexivity.
      * assert (K := H 0%nat). cbn [nth length] in K.
        replace (Nat.leb 0 0 && Nat.ltb 0 (0 + S (length row)))%bool with true in K by reflexivity.
        cbn [nth Nat.sub] in K.
        rewrite (IH 0%nat row F').
        { cbn [zsum fold_right]. fold (zsum row). lia. }
        { injection L; auto. } { cbn [length] in B. lia. }
        intros j. specialize (H (S j)). cbn [nth] in H. rewrite H. cbn [length].
        replace (Nat.leb 0 (S j) && Nat.ltb (S j) (0 + S (length row)))%bool
          with (Nat.leb 0 j && Nat.ltb j (0 + length row))%bool by reflexivity.
        replace (j - 0)%nat with j by lia. cbn [Nat.sub nth]. reflexivity.
    + assert (K := H 0%nat). cbn [nth] in K.
      replace (Nat.leb (S off) 0 && Nat.ltb 0 (S off + length row))%bool with false in K by reflexivity.
      rewrite (IH off row F').
      { lia. } { injection L; auto. } { cbn [length] in B. lia. }
      intros j. specialize (H (S j)). cbn [nth] in H. rewrite H.
      replace (Nat.leb (S off) (S j) && Nat.ltb (S j) (S off + length row))%bool
        with (Nat.leb off j && Nat.ltb j (off + length row))%bool by reflexivity.
      replace (S j - S off)%nat with (j - off)%nat by lia. reflexivity.
Qed.

Lemma zsum_scale row p : zsum (map (fun k => k * p) row) = zsum row * p.
Proof. unfold zsum. induction row as [|k row IH]; cbn [map fold_right]; lia. Qed.

Lemma add_pulse_gain b t p b' : buffer_ok b ->
  (forall row, In row (b_pulse b) -> zsum row = 32767) ->
  BKBufferAddPulse b t p = Ok b' -> zsum (b_frames b') = zsum (b_frames b) + 32767 * s16 p.
Proof.
  intros H G E. destruct (add_pulse_spec b t p H) as [(F & K1 & K2 & K3 & K4)|(K1 & _)];
    rewrite K1 in E; inversion E; subst b'; clear E.
  destruct H as (H1 & H2 & H3 & H4 & H5 & H6).
  set (T := u32 (b_time b + t)) in *.
  assert (HT : 0 <= T < 4294967296) by apply u32_range.
  assert (Hf : 0 <= T mod 1048576 / 32768 <= 31) by lia.
  destruct (kernel_row _ _ H4 Hf) as (_ & R2 & _).
  set (row := nth (Z.to_nat (T mod 1048576 / 32768)) (b_pulse b) []) in *.
  assert (Hin : In row (b_pulse b)). { apply nth_In. destruct H4 as [H4 _]. lia. }
  cbn [with_frames b_frames].
  pose proof capacity_val.
  rewrite (zsum_cells_shift (map (fun k => k * s16 p) row) (Z.to_nat (T / 1048576)) (b_frames b) F).
  - rewrite zsum_scale, (G _ Hin). lia.
  - exact K2.
  - rewrite map_length, R2. lia.
  - intros j. rewrite map_length, R2.
    specialize (K4 (Z.of_nat j) ltac:(lia)). unfold cell in K4 at 1 2. rewrite Nat2Z.id in K4.
    rewrite K4. f_equal. unfold pulse_at. fold row.
    replace (Nat.leb (Z.to_nat (T / 1048576)) j && Nat.ltb j (Z.to_nat (T / 1048576) + 32))%bool
      with ((T / 1048576 <=? Z.of_nat j) && (Z.of_nat j <? T / 1048576 + 32)).
    2:{ apply eq_true_iff_eq. rewrite !andb_true_iff, Nat.leb_le, Nat.ltb_lt. lia. }
    destruct (_ && _) eqn:B; [|reflexivity].
    unfold cell. change 0 with (0 * s16 p) at 2. rewrite (map_nth (fun k => k * s16 p)).
    f_equal. f_equal. lia.
Qed.

(** * The stream of a whole history *)
Lemma zseq_app n m : forall a, zseq a (n + m) = zseq a n ++ zseq (a + Z.of_nat n) m.
Proof.
  induction n as [|n IH]; intros a; cbn [zseq Nat.add app].
  - f_equal. lia.
  - f_equal. rewrite IH. do 2 f_equal. lia.
Qed.

Lemma zseq_length n : forall a, length (zseq a n) = n.
Proof. induction n; intros; cbn [zseq length]; auto. Qed.

Lemma zseq_In n : forall a x, In x (zseq a n) -> a <= x < a + Z.of_nat n.
Proof.
  induction n as [|n IH]; intros a x H; cbn [zseq In] in H; [easy|].
  destruct H as [<-|H]; [lia|]. apply IH in H. lia.
Qed.

Lemma zseq_nth n : forall a i, (i < n)%nat -> nth i (zseq a n) 0 = a + Z.of_nat i.
Proof.
  induction n as [|n IH]; intros a [|i] H; cbn [zseq nth]; try lia. rewrite IH by lia. lia.
Qed.

Lemma integrate_app d : forall a d', integrate a (d ++ d') = integrate a d ++ integrate (integrate_end a d) d'.
Proof.
  induction d as [|x d IH]; intros a d'; cbn [app integrate]; [reflexivity|].
  rewrite IH. cbn [app]. do 3 f_equal. unfold integrate_end. cbn [integrate]. symmetry. apply last_cons.
Qed.

Lemma pulse_at_before K T p j : j < T / 1048576 -> pulse_at K T p j = 0.
Proof. intros. unfold pulse_at. replace (T / 1048576 <=? j) with false by lia. reflexivity. Qed.

Lemma pulse_at_after K T p j : T / 1048576 + 32 <= j -> pulse_at K T p j = 0.
Proof. intros. unfold pulse_at. replace (j <? T / 1048576 + 32) with false by lia. rewrite andb_false_r. reflexivity. Qed.

Lemma pulses_at_zero K l j : (forall t p, In (t, p) l -> pulse_at K t p j = 0) -> pulses_at K l j = 0.
Proof.
  induction l as [|[t p] l IH]; intros H; [reflexivity|].
  rewrite pulses_at_cons, (H t p) by (left; reflexivity). rewrite IH; [lia|].
  intros t' p' Hin. apply H. right. exact Hin.
Qed.

Lemma pulse_at_shift K T p j rd : pulse_at K (T + rd * 1048576) p (j + rd) = pulse_at K T p j.
Proof.
  unfold pulse_at. rewrite Z.div_add, Z.mod_add by lia.
  replace (T / 1048576 + rd <=? j + rd) with (T / 1048576 <=? j) by lia.
  replace (j + rd <? T / 1048576 + rd + 32) with (j <? T / 1048576 + 32) by lia.
  replace (j + rd - (T / 1048576 + rd)) with (j - T / 1048576) by lia. reflexivity.
Qed.

Lemma rounds_pulses_time rs : forall now rd t p, rounds_ok now rd rs -> In (t, p) (rounds_pulses now rs) -> now <= t.
Proof.
  induction rs as [|r rs IH]; intros now rd t p H Hin; cbn [rounds_pulses rounds_ok] in *; [easy|].
  destruct H as (H1 & H2 & H3 & H4 & H5). apply in_app_or in Hin as [Hin|Hin].
  - apply in_map_iff in Hin as ([t' p'] & E & Hin). inversion E; subst. cbn [fst snd] in *.
    specialize (H2 _ _ Hin). lia.
  - specialize (IH _ _ _ _ H5 Hin). lia.
Qed.

(** Invariant: buffer [b] represents the signal of the pulses [P] from frame [rd] on. *)
Definition stream_inv (b : buffer) (now rd : Z) (P : list (Z * Z)) : Prop :=
  buffer_ok b /\ b_time b = now - rd * 1048576 /\ accountable b /\
  (forall j, 0 <= j < 4129 -> cell (b_frames b) j = pulses_at (b_pulse b) P (j + rd)) /\
  (forall j, b_capacity b + 33 <= j -> pulses_at (b_pulse b) P (j + rd) = 0).

Lemma stream_step b now rd P r b' s :
  stream_inv b now rd P ->
  0 <= r_end r ->
  (forall t p, In (t, p) (r_pulses r) -> 0 <= t <= r_end r /\ is_s16 p) ->
  now + r_end r - rd * 1048576 < 4294967296 ->
  0 <= r_read r <= (now + r_end r) / 1048576 - rd ->
  now mod 1048576 = 0 -> r_end r mod 1048576 = 0 ->
  round_run b (r_pulses r) (r_end r) (r_read r) = Ok (b', s) ->
  let P' := P ++ map (fun tp => (now + fst tp, snd tp)) (r_pulses r) in
  let d := map (pulses_at (b_pulse b) P') (zseq rd (Z.to_nat (r_read r))) in
  stream_inv b' (now + r_end r) (rd + r_read r) P' /\
  b_pulse b' = b_pulse b /\
  s = map saturate (integrate (b_accum b) d) /\
  b_accum b' = integrate_end (b_accum b) d.
Proof.
  intros (I1 & I2 & I3 & I4 & I5) Hte Hp Hr Hn W0 WE E P' d. pose proof capacity_val as Hcap.
  unfold round_run in E. apply bind_ok in E as (b1 & E1 & E).
  destruct (add_all_spec _ _ _ I1 E1) as (O1 & W1 & C1).
  assert (T1 : b_time b1 = b_time b) by (rewrite W1; reflexivity).
  assert (A1 : b_accum b1 = b_accum b) by (rewrite W1; reflexivity).
  assert (K1 : b_pulse b1 = b_pulse b) by (rewrite W1; reflexivity).
  assert (Cap1 : b_capacity b1 = b_capacity b) by (rewrite W1; reflexivity).
  assert (Hcapr : 0 <= b_capacity b <= 4095) by apply I1.
  assert (Htr : 0 <= b_time b < 4294967296) by apply I1.
  set (te := r_end r) in *.
  set (n := r_read r) in *.
  set (b2 := BKBufferEnd b1 te) in *. set (b3 := BKBufferShift b2 te) in *.
  assert (O2 : buffer_ok b2) by (apply end_ok, O1).
  assert (O3 : buffer_ok b3) by (apply shift_ok, O2).
  assert (Ac3 : accountable b3) by (apply shift_accountable, O2).
  assert (C2 : b_capacity b2 = Z.max (b_capacity b) ((b_time b + te) / 1048576)).
  { unfold b2, BKBufferEnd; cbn [b_capacity]. rewrite Cap1, T1. rewrite u32_id by lia. rewrite off_eq.
    destruct (_ >? b_capacity b) eqn:?; lia. }
  assert (C3 : b_capacity b3 = b_capacity b2) by reflexivity.
  assert (T3 : b_time b3 = Z.min (b_time b + te) (b_capacity b2 * 1048576)).
  { assert (Hc2 : 0 <= b_capacity b2 <= 4095) by apply O2.
    unfold b3, BKBufferShift; cbn [b_time].
    unfold BK_FINT20_SHIFT. rewrite Z.shiftl_mul_pow2 by lia. change (2 ^ 20) with 1048576.
    rewrite (u32_id (b_capacity b2 * 1048576)) by lia.
    assert (T2 : b_time b2 = b_time b) by (unfold b2, BKBufferEnd; cbn [b_time]; exact T1).
    rewrite T2. rewrite (u32_id (b_time b + te)) by lia.
    destruct (b_time b + te >? b_capacity b2 * 1048576) eqn:G.
    - rewrite Z.min_r by lia. unfold u32. lia.
    - rewrite Z.min_l by lia. apply u32_id. lia. }
  (* pulses in the local frame of reference *)
  assert (LP : forall j, pulses_at (b_pulse b) (local_pulses b (r_pulses r)) j
               = pulses_at (b_pulse b) (map (fun tp => (now + fst tp, snd tp)) (r_pulses r)) (j + rd)).
  { intros j. clear - Hp Hr I2 Htr Hte te. induction (r_pulses r) as [|[t p] l IH]; [reflexivity|].
    unfold local_pulses in *. cbn [map fst snd]. rewrite !pulses_at_cons.
    rewrite IH by (intros; apply Hp; right; assumption).
    destruct (Hp t p (or_introl eq_refl)) as [Q1 Q2]. rewrite s16_id by assumption.
    rewrite u32_id by (fold te in Q1; lia).
    replace (now + t) with (b_time b + t + rd * 1048576) by lia. rewrite pulse_at_shift. reflexivity. }
  assert (F3 : b_frames b3 = b_frames b1) by reflexivity.
  assert (A3 : b_accum b3 = b_accum b) by exact A1.
  assert (P3 : b_pulse b3 = b_pulse b) by exact K1.
  assert (CI : forall j, 0 <= j < 4129 -> cell (b_frames b3) j = pulses_at (b_pulse b) P' (j + rd)).
  { intros j Hj. rewrite F3, C1 by lia. rewrite I4 by lia. unfold P'. rewrite pulses_at_app, LP. reflexivity. }
  assert (ZI : forall j, b_capacity b3 + 33 <= j -> pulses_at (b_pulse b) P' (j + rd) = 0).
  { intros j Hj. unfold P'. rewrite pulses_at_app, I5 by lia. rewrite Z.add_0_l.
    apply pulses_at_zero. intros t p Hin. apply in_map_iff in Hin as ([t' p'] & Eq & Hin).
    inversion Eq; subst t p. cbn [fst snd] in *. apply pulse_at_after.
    destruct (Hp _ _ Hin) as [Q _]. fold te in Q. lia. }
  assert (L3 : length (b_frames b3) = BK_BUFFER_CAPACITY) by apply O3.
  assert (Cr3 : 0 <= b_capacity b3 <= 4095) by apply O3.
  assert (Hn0 : 0 <= n) by lia.
  assert (M : BKMin n (b_capacity b3) = n).
  { unfold BKMin. destruct (n <? b_capacity b3) eqn:?; lia. }
  destruct (read_samples _ _ _ _ O3 Hn0 E) as (S1 & S2 & S3). rewrite M, A3 in *.
  assert (FD : firstn (Z.to_nat n) (b_frames b3) = d).
  { unfold d. apply nth_ext with (d := 0) (d' := pulses_at (b_pulse b) P' 0).
    - rewrite firstn_length, map_length, zseq_length. lia.
    - intros i Hi. rewrite firstn_length in Hi.
      rewrite nth_firstn_lt by lia. rewrite map_nth, zseq_nth by lia.
      specialize (CI (Z.of_nat i) ltac:(lia)). unfold cell in CI. rewrite Nat2Z.id in CI.
      rewrite CI. f_equal. lia. }
  rewrite FD in *.
  assert (O4 := read_ok _ _ _ _ O3 Hn0 E).
  assert (B4 := E). rewrite read_unfold in B4 by assumption. cbv zeta in B4. rewrite M in B4.
  apply bind_ok in B4 as (rr & _ & B4).
  assert (B4' := f_equal (fun x => match x with Ok y => fst y | Err _ => b end) B4). cbn [fst] in B4'.
  assert (F4 : b_frames b' = read_frames (b_frames b3) n (b_capacity b3)) by (rewrite <- B4'; reflexivity).
  assert (C4 : b_capacity b' = b_capacity b3 - n) by (rewrite <- B4'; reflexivity).
  assert (T4 : b_time b' = u32 (b_time b3 - n * 1048576)) by (rewrite <- B4'; reflexivity).
  assert (K4 : b_pulse b' = b_pulse b) by (rewrite <- B4'; exact P3).
  assert (TT : b_time b3 = b_time b + te).
  { rewrite T3, Z.min_l; [reflexivity|]. rewrite C2. lia. }
  split; [|split; [exact K4|split; [exact S1|exact S3]]].
  unfold stream_inv. rewrite K4, C4.
  split; [exact O4|]. split; [rewrite T4, TT, u32_id; lia|].
  split; [unfold accountable in *; rewrite T4, C4, TT, u32_id; lia|].
  split.
  - intros j Hj. rewrite F4, cell_read_frames by lia.
    replace (j + (rd + n)) with (j + n + rd) by lia.
    destruct (j <? b_capacity b3 + 33 - n) eqn:G1; [apply CI; lia|].
    rewrite ZI by lia. destruct (j <? b_capacity b3 + 33) eqn:G2; [reflexivity|].
    rewrite CI by lia. apply ZI. lia.
  - intros j Hj. replace (j + (rd + n)) with (j + n + rd) by lia. apply ZI. lia.
Qed.

Definition raw_rounds (rs : list round) : list (list (Z * Z) * Z * Z) :=
  map (fun r => (r_pulses r, r_end r, r_read r)) rs.

Lemma rounds_read_nonneg rs : forall now rd, rounds_ok now rd rs -> 0 <= rounds_read rs.
Proof.
  unfold rounds_read. induction rs as [|r rs IH]; intros now rd H; cbn [map zsum fold_right rounds_ok] in *; [lia|].
  destruct H as (_ & _ & _ & H4 & H5). specialize (IH _ _ H5). unfold zsum in *. lia.
Qed.

Lemma rounds_read_le rs : forall now rd, rounds_ok now rd rs -> rd <= now / 1048576 ->
  forall t p, In (t, p) (rounds_pulses now rs) -> rd <= t / 1048576.
Proof. intros now rd H L t p Hin. assert (K := rounds_pulses_time _ _ _ _ _ H Hin). lia. Qed.

Lemma stream_run rs : forall b now rd P b' s,
  stream_inv b now rd P -> now mod 1048576 = 0 -> rounds_ok now rd rs -> whole_frames rs ->
  rounds_run b (raw_rounds rs) = Ok (b', s) ->
  s = map saturate (integrate (b_accum b)
        (map (pulses_at (b_pulse b) (P ++ rounds_pulses now rs)) (zseq rd (Z.to_nat (rounds_read rs))))).
Proof.
  induction rs as [|r rs IH]; intros b now rd P b' s I W0 R W E.
  - cbn in E. inversion E; subst. reflexivity.
  - cbn [raw_rounds map rounds_run] in E. fold (raw_rounds rs) in E.
    apply bind_ok in E as ([b1 s1] & E1 & E). apply bind_ok in E as ([b2 s2] & E2 & E).
    cbn [fst snd] in *. inversion E; subst b' s. clear E.
    cbn [rounds_ok] in R. destruct R as (R1 & R2 & R3 & R4 & R5).
    inversion W as [|x l W1 W2]; subst.
    destruct (stream_step _ _ _ _ _ _ _ I R1 R2 R3 R4 W0 W1 E1) as (I' & K' & S' & A').
    assert (E2' := IH _ _ _ _ _ _ I' ltac:(lia) R5 W2 E2). rewrite E2', S', K', A'.
    assert (N := rounds_read_nonneg _ _ _ R5).
    assert (Tot : rounds_read (r :: rs) = r_read r + rounds_read rs) by reflexivity.
    rewrite Tot, Z2Nat.inj_add by lia. rewrite zseq_app, map_app, integrate_app, map_app.
    cbn [rounds_pulses]. rewrite <- !app_assoc. rewrite Z2Nat.id by lia.
    assert (EQ : map (pulses_at (b_pulse b) (P ++ map (fun tp => (now + fst tp, snd tp)) (r_pulses r)))
                   (zseq rd (Z.to_nat (r_read r)))
               = map (pulses_at (b_pulse b) (P ++ map (fun tp => (now + fst tp, snd tp)) (r_pulses r)
                       ++ rounds_pulses (now + r_end r) rs)) (zseq rd (Z.to_nat (r_read r)))).
    { apply map_ext_in. intros j Hj. apply zseq_In in Hj. rewrite (app_assoc P), (pulses_at_app _ (P ++ _)).
      rewrite (pulses_at_zero _ (rounds_pulses _ _)); [lia|].
      intros t p Hin. apply pulse_at_before.
      assert (K := rounds_pulses_time _ _ _ _ _ R5 Hin). lia. }
    rewrite EQ. reflexivity.
Qed.

Lemma init_stream K : kernel_ok K ->
  stream_inv (mk_buffer 0 0 0 (repeat 0 BK_BUFFER_CAPACITY) K) 0 0 [].
Proof.
  intros HK. split; [|split; [reflexivity|split; [unfold accountable; cbn [b_time b_capacity]; lia|split]]].
  - unfold buffer_ok; cbn [b_frames b_time b_capacity b_pulse b_accum].
    split; [apply repeat_length|]. split; [lia|]. split; [lia|].
    split; [exact HK|]. split; [unfold is_s32; lia|].
    intros v Hv. apply repeat_spec in Hv. unfold is_s32. lia.
  - intros j Hj. cbn [b_frames b_pulse]. unfold cell. rewrite nth_repeat_any.
    destruct (Nat.ltb _ _); reflexivity.
  - reflexivity.
Qed.

Lemma stream_history K rs b' s : kernel_ok K -> rounds_ok 0 0 rs -> whole_frames rs ->
  rounds_run (mk_buffer 0 0 0 (repeat 0 BK_BUFFER_CAPACITY) K) (raw_rounds rs) = Ok (b', s) ->
  s = stream_spec K rs.
Proof.
  intros HK R W E. exact (stream_run rs _ _ _ _ _ _ (init_stream K HK) eq_refl R W E).
Qed.
