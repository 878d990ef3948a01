(** The channels of a context have the same time and capacity. *)
From Verif Require Import CInt CIntFacts TimeModel Kernels BufferModel UnitModel TrackModel ContextModel.
Ltac Zify.zify_post_hook ::= idtac.

Definition alike (t k : Z) (b : buffer) : Prop := b_time b = t /\ b_capacity b = k.
Definition same (c : context) : Prop := exists t k, 0 <= k /\ Forall (alike t k) (cx_channels c).

Lemma bind_ok' {A B} (x : res A) (f : A -> res B) y : bind x f = Ok y -> exists a, x = Ok a /\ f a = Ok y.
Proof. destruct x; cbn; [intros H; eexists; split; [reflexivity|exact H]|discriminate]. Qed.

Ltac binv H a E := apply bind_ok' in H; destruct H as (a & E & H).

Lemma add_all_alike l : forall b b' t k, alike t k b -> add_all b l = Ok b' -> alike t k b'.
Proof.
  induction l as [|[t1 p] l IH]; intros b b' t k H E; cbn [add_all] in E.
  - assert (b' = b) as -> by congruence. exact H.
  - binv E b1 E1. apply (IH b1); [|exact E]. unfold BKBufferAddPulse in E1. cbv zeta in E1. binv E1 ph E2. binv E1 fr E3.
    assert (b1 = mk_buffer (b_time b) (b_capacity b) (b_accum b) fr (b_pulse b)) as -> by congruence. exact H.
Qed.

Lemma u32_ge z : 0 <= u32 z.
Proof. pose proof (u32_range z). lia. Qed.

Lemma end_alike t k b time : 0 <= k -> alike t k b ->
  alike t (let o := Z.shiftr (u32 (t + time)) BK_FINT20_SHIFT in if o >? k then o else k) (BKBufferEnd b time).
Proof. intros K [<- <-]. split; reflexivity. Qed.

Lemma mix_alike time : forall chs ls chs' t k, 0 <= k -> Forall (alike t k) chs -> mix_channels chs ls time = Ok chs' ->
  exists k', 0 <= k' /\ Forall (alike t k') chs'.
Proof.
  intros chs ls chs' t k K H E.
  exists (let o := Z.shiftr (u32 (t + time)) BK_FINT20_SHIFT in if o >? k then o else k).
  split. { cbv zeta. destruct (_ >? _); [|exact K]. apply Z.shiftr_nonneg. apply u32_ge. }
  revert ls chs' E. induction H as [|b chs Hb H IH]; intros ls chs' E; cbn [mix_channels] in E.
  - assert (chs' = []) as -> by congruence. constructor.
  - binv E b1 E1. binv E chs1 E2. assert (chs' = BKBufferEnd b1 time :: chs1) as -> by congruence.
    constructor; [|apply (IH _ _ E2)]. apply end_alike; [exact K|]. apply (add_all_alike _ _ _ _ _ Hb E1).
Qed.

Lemma run_tracks_alike fuel time : forall ts chs ts' chs' t k, 0 <= k -> Forall (alike t k) chs -> run_tracks fuel ts chs time = Ok (ts', chs') ->
  exists k', 0 <= k' /\ Forall (alike t k') chs'.
Proof.
  induction ts as [|[i tr] ts IH]; intros chs ts' chs' t k K H E; cbn [run_tracks] in E.
  - assert (chs' = chs) as -> by congruence. eauto.
  - binv E r E1. destruct r as [tr' ls]. binv E chs1 E2. binv E r E3. destruct r as [ts1 chs2].
    assert (chs' = chs2) as -> by congruence. destruct (mix_alike _ _ _ _ _ _ K H E2) as (k1 & K1 & H1).
    apply (IH _ _ _ _ _ K1 H1 E3).
Qed.

Lemma run_units_same fuel c time c' : same c -> run_units fuel c time = Ok c' -> same c'.
Proof.
  intros (t & k & K & H) E. unfold run_units in E. binv E r E1. destruct r as [ts chs].
  destruct (run_tracks_alike _ _ _ _ _ _ _ _ K H E1) as (k' & K' & H'). assert (c' = x_channels (x_tracks c ts) chs) as -> by congruence.
  exists t, k'. split; assumption.
Qed.

Lemma advance_same e fuel c c' q : BKClocksAdvance e fuel c = Ok (c', q) -> cx_channels c' = cx_channels c.
Proof.
  unfold BKClocksAdvance. intros E. binv E r E1. destruct r as [[ts ks] nt]. binv E d E2. binv E ks' E3. binv E t E4.
  assert (c' = x_current (x_clocks (x_tracks c ts) ks') t) as -> by congruence. reflexivity.
Qed.

Lemma run_loop_same n e fuel : forall c time endTime c' t', same c -> run_loop n e fuel c time endTime = Ok (c', t') -> same c'.
Proof.
  induction n as [|n IH]; intros c time endTime c' t' H E; cbn [run_loop] in E; destruct (time <? endTime); try discriminate;
    try (assert (c' = c) as -> by congruence; exact H).
  binv E r E1. destruct r as [c1 q]. cbv zeta in E. binv E c2 E2. apply IH in E; [exact E|].
  apply (run_units_same _ _ _ _) in E2; [exact E2|]. destruct H as (t & k & K & H). exists t, k. split; [exact K|].
  rewrite (advance_same _ _ _ _ _ E1). exact H.
Qed.

Lemma run_same n e fuel c endTime c' : same c -> BKContextRun n e fuel c endTime = Ok c' -> same c'.
Proof.
  intros H E. unfold BKContextRun in E. destruct (cx_clocks c).
  - apply (run_units_same _ _ _ _ H E).
  - binv E r E1. destruct r as [c1 t]. apply run_loop_same in E1; [|exact H]. assert (c' = x_delta c1 t) as -> by congruence. exact E1.
Qed.

Lemma end_same n e fuel c endTime c' : same c -> BKContextEnd n e fuel c endTime = Ok c' -> same c'.
Proof.
  intros H E. unfold BKContextEnd in E. binv E c1 E1. apply run_same in E1; [|exact H]. cbv zeta in E.
  match type of E with Ok ?x = _ => assert (c' = x) as -> by congruence end. clear E. destruct E1 as (t & k & K & E1).
  unfold same. cbn [x_channels cx_channels x_tracks x_delta].
  exists (b_time (BKBufferShift (mk_buffer t k 0 [] []) endTime)), k. split; [exact K|].
  apply Forall_map. eapply Forall_impl; [|exact E1]. intros b [<- <-]. split; reflexivity.
Qed.

Lemma read_loop_length l : forall a r, read_loop l a = Ok r -> length (snd r) = length l.
Proof.
  induction l as [|f l IH]; intros a r E; cbn [read_loop] in E.
  - assert (r = (a, [])) as -> by congruence. reflexivity.
  - binv E a1 E1. binv E a2 E2. binv E r1 E3. apply IH in E3. inversion E; subst. cbn. rewrite E3. reflexivity.
Qed.

Lemma read_alike t k b size b' s : 0 <= size -> 0 <= k -> alike t k b -> BKBufferRead b size = Ok (b', s) ->
  Z.of_nat (length s) = BKMin size k /\
  alike (u32 (t - u32 (Z.shiftl (BKMin size k) BK_FINT20_SHIFT))) (u32 (k - BKMin size k)) b'.
Proof.
  intros S K [<- <-] E. unfold BKBufferRead in E. cbv zeta in E. destruct (BKMin size (b_capacity b) >? Z.of_nat (length (b_frames b))) eqn:L; [discriminate|].
  rewrite Z.gtb_ltb, Z.ltb_ge in L. apply bind_ok' in E. destruct E as (r & E1 & E). cbv beta in E. apply read_loop_length in E1.
  rewrite firstn_length in E1. destruct (_ >? Z.of_nat _); [discriminate|].
  assert (0 <= BKMin size (b_capacity b)) by (unfold BKMin; destruct (_ <? _); lia).
  assert (s = snd r) as -> by congruence. match type of E with Ok (?x, _) = _ => assert (b' = x) as -> by congruence end.
  split; [lia|]. split; reflexivity.
Qed.

Lemma read_all_alike : forall chs t k size chs' n l, 0 <= size -> 0 <= k -> Forall (alike t k) chs ->
  read_channels chs size = Ok (chs', n, l) ->
  Forall (fun s => Z.of_nat (length s) = BKMin size k) l /\ length l = length chs /\
  (chs <> [] -> n = BKMin size k) /\
  Forall (alike (u32 (t - u32 (Z.shiftl (BKMin size k) BK_FINT20_SHIFT))) (u32 (k - BKMin size k))) chs'.
Proof.
  induction chs as [|b chs IH]; intros t k size chs' n l S K H E; cbn [read_channels] in E.
  - inversion E; subst. split; [constructor|]. split; [reflexivity|]. split; [congruence|constructor].
  - inversion H as [|x y Hb H']; subst. binv E r E1. destruct r as [b1 s]. binv E r E2. destruct r as [[chs1 n1] l1].
    inversion E; subst. clear E. destruct (read_alike _ _ _ _ _ _ S K Hb E1) as [L A]. rewrite L in E2.
    assert (M : 0 <= BKMin size k) by (unfold BKMin; destruct (_ <? _); lia).
    assert (MM : BKMin (BKMin size k) k = BKMin size k) by (unfold BKMin; destruct (size <? k) eqn:?; [replace (size <? k) with true|destruct (k <? k)]; reflexivity).
    destruct (IH _ _ _ _ _ _ M K H' E2) as (I1 & I2 & I3 & I4). rewrite MM in *.
    split; [constructor; assumption|]. split; [cbn; congruence|]. split.
    + intros _. destruct chs; [cbn in E2; congruence|]. apply I3. discriminate.
    + constructor; assumption.
Qed.

(** All lists have the same length. *)
Definition even (l : list (list Z)) : Prop := forall s1 s2, In s1 l -> In s2 l -> length s1 = length s2.

Lemma read_same c size c' n l : 0 <= size -> same c -> BKContextRead c size = Ok (c', n, l) ->
  same c' /\ (exists k, Forall (fun s => length s = k) l) /\ length l = length (cx_channels c) /\ length (cx_channels c') = length (cx_channels c) /\
  (cx_channels c <> [] -> Forall (fun s => Z.of_nat (length s) = n) l) /\ (0 <= n).
Proof.
  intros S (t & k & K & H) E. unfold BKContextRead in E. binv E r E1. destruct r as [[chs n1] l1]. inversion E; subst. clear E.
  assert (LL : length chs = length (cx_channels c)).
  { clear - E1. revert size chs n l E1. generalize (cx_channels c) as a. induction a as [|b a IH]; intros size chs n l E; cbn [read_channels] in E.
    - inversion E; reflexivity.
    - binv E r E1. destruct r. binv E r E2. destruct r as [[? ?] ?]. inversion E; subst. apply IH in E2. cbn. congruence. }
  destruct (read_all_alike _ _ _ _ _ _ _ S K H E1) as (I1 & I2 & I3 & I4).
  assert (M : 0 <= BKMin size k) by (unfold BKMin; destruct (_ <? _); lia).
  split. { exists (u32 (t - u32 (Z.shiftl (BKMin size k) BK_FINT20_SHIFT))), (u32 (k - BKMin size k)). split; [apply u32_ge|exact I4]. }
  split. { exists (Z.to_nat (BKMin size k)). eapply Forall_impl; [|exact I1]. cbn. intros a Ha. lia. }
  split; [exact I2|]. split; [exact LL|]. split.
  - intros N. rewrite (I3 N). exact I1.
  - destruct (cx_channels c) eqn:EC; [|rewrite I3 by discriminate; exact M]. cbn in E1. inversion E1; subst. exact S.
Qed.

Lemma join_even : forall a b k1 k2, length a = length b -> Forall (fun s => length s = k1) a -> Forall (fun s => length s = k2) b ->
  Forall (fun s => length s = (k1 + k2)%nat) (join a b) /\ length (join a b) = length a.
Proof.
  induction a as [|x a IH]; intros [|y b] k1 k2 L A B; cbn in L; try discriminate; cbn [join]; [split; [constructor|reflexivity]|].
  inversion A; inversion B; subst. injection L as L. destruct (IH _ _ _ L H2 H6) as [I1 I2]. split; [|cbn; congruence].
  constructor; [rewrite app_length; lia|exact I1].
Qed.

(** Number of channels. *)
Lemma mix_length time : forall chs ls chs', mix_channels chs ls time = Ok chs' -> length chs' = length chs.
Proof.
  induction chs as [|b chs IH]; intros ls chs' E; cbn [mix_channels] in E; [inversion E; reflexivity|].
  binv E b1 E1. binv E chs1 E2. inversion E; subst. apply IH in E2. cbn. congruence.
Qed.
Lemma run_tracks_length fuel time : forall ts chs ts' chs', run_tracks fuel ts chs time = Ok (ts', chs') -> length chs' = length chs.
Proof.
  induction ts as [|[i tr] ts IH]; intros chs ts' chs' E; cbn [run_tracks] in E; [inversion E; reflexivity|].
  binv E r E1. destruct r as [tr' ls]. binv E chs1 E2. binv E r E3. destruct r as [ts1 chs2].
  assert (chs' = chs2) as -> by congruence. apply IH in E3. apply mix_length in E2. congruence.
Qed.
Lemma run_units_length fuel c time c' : run_units fuel c time = Ok c' -> length (cx_channels c') = length (cx_channels c).
Proof.
  unfold run_units. intros E. binv E r E1. destruct r as [ts chs]. apply run_tracks_length in E1.
  assert (c' = x_channels (x_tracks c ts) chs) as -> by congruence. exact E1.
Qed.
Lemma run_loop_length n e fuel : forall c time endTime c' t', run_loop n e fuel c time endTime = Ok (c', t') ->
  length (cx_channels c') = length (cx_channels c).
Proof.
  induction n as [|n IH]; intros c time endTime c' t' E; cbn [run_loop] in E; destruct (time <? endTime); try discriminate;
    try (assert (c' = c) as -> by congruence; reflexivity).
  binv E r E1. destruct r as [c1 q]. cbv zeta in E. binv E c2 E2. apply IH in E. apply run_units_length in E2. apply advance_same in E1. congruence.
Qed.
Lemma end_length n e fuel c endTime c' : BKContextEnd n e fuel c endTime = Ok c' -> length (cx_channels c') = length (cx_channels c).
Proof.
  unfold BKContextEnd, BKContextRun. intros E. binv E c1 E1. cbv zeta in E.
  match type of E with Ok ?x = _ => assert (c' = x) as -> by congruence end. cbn [x_channels cx_channels x_tracks x_delta]. rewrite map_length.
  destruct (cx_clocks c).
  - apply (run_units_length _ _ _ _ E1).
  - binv E1 r E2. destruct r as [c2 t]. apply run_loop_length in E2. assert (c1 = x_delta c2 t) as -> by congruence. exact E2.
Qed.

Lemma generate_same m n e fuel : forall c rem w c' w' l, 0 <= rem -> same c -> generate_loop m n e fuel c rem w = Ok (c', w', l) ->
  same c' /\ (exists k, Forall (fun s => length s = k) l) /\ length l = length (cx_channels c) /\ length (cx_channels c') = length (cx_channels c).
Proof.
  induction m as [|m IH]; intros c rem w c' w' l R H E; cbn [generate_loop] in E; [discriminate|]. cbv zeta in E.
  set (chunk := if rem >? BK_MAX_GENERATE_SAMPLES then BK_MAX_GENERATE_SAMPLES else rem) in E.
  assert (C : 0 <= chunk) by (unfold chunk, BK_MAX_GENERATE_SAMPLES; destruct (_ >? _); lia).
  binv E c1 E1. binv E r E2. destruct r as [[c2 k] l1]. pose proof (end_length _ _ _ _ _ _ E1) as L1. apply end_same in E1; [|exact H].
  destruct (read_same _ _ _ _ _ C E1 E2) as (I1 & (k1 & I2) & I3 & I4 & _). destruct (negb _).
  - binv E r E3. destruct r as [[c3 w3] l3]. inversion E; subst. clear E.
    apply IH in E3; [|apply u32_ge|exact I1]. destruct E3 as (J1 & (k3 & J2) & J3 & J4).
    destruct (join_even l1 l3 k1 k3 ltac:(congruence) I2 J2) as [Q1 Q2].
    split; [exact J1|]. split; [eexists; exact Q1|]. split; congruence.
  - inversion E; subst. split; [exact I1|]. split; [eexists; exact I2|]. split; congruence.
Qed.

Lemma fold_join_nil c l : fold_right join [] (l :: c) = join l (fold_right join [] c).
Proof. reflexivity. Qed.

Lemma generate_to_same m n e fuel wr : forall c t nf bl c' r ls, same c -> generate_to_loop m n e fuel wr c t nf bl = Ok (c', r, ls) ->
  same c' /\ Forall (fun l => (exists k, Forall (fun s => length s = k) l) /\ length l = length (cx_channels c)) ls /\
  length (cx_channels c') = length (cx_channels c).
Proof.
  induction m as [|m IH]; intros c t nf bl c' r ls H E; cbn [generate_to_loop] in E; destruct (BKTimeIsLess _ _); try discriminate;
    try (inversion E; subst; split; [exact H|]; split; [constructor|reflexivity]).
  binv E d E1. cbv zeta in E. binv E c1 E2. binv E size E3. pose proof (end_length _ _ _ _ _ _ E2) as L1. apply end_same in E2; [|exact H].
  destruct (_ || _).
  - binv E q E4. destruct q as [[c2 sz] l]. binv E nf' E5.
    destruct (read_same _ BK_MAX_GENERATE_SAMPLES _ _ _ ltac:(unfold BK_MAX_GENERATE_SAMPLES; lia) E2 E4) as (I1 & I2 & I3 & I4 & _).
    destruct (negb _).
    + inversion E; subst. split; [exact I1|]. split; [|congruence]. constructor; [split; [exact I2|congruence]|constructor].
    + binv E q E6. destruct q as [[c3 r3] ls3]. inversion E; subst. apply IH in E6; [|exact I1]. destruct E6 as (J1 & J2 & J3).
      split; [exact J1|]. split; [|congruence]. constructor; [split; [exact I2|congruence]|]. eapply Forall_impl; [|exact J2].
      intros a [A1 A2]. split; [exact A1|congruence].
  - apply IH in E; [|exact E2]. destruct E as (J1 & J2 & J3). split; [exact J1|]. split; [|congruence].
    eapply Forall_impl; [|exact J2]. intros a [A1 A2]. split; [exact A1|congruence].
Qed.

Lemma fold_join_even N : forall ls, Forall (fun l => (exists k, Forall (fun s : list Z => length s = k) l) /\ length l = N) ls ->
  exists k, Forall (fun s => length s = k) (fold_right join [] ls).
Proof.
  intros ls H. assert (G : ls = [] \/ (exists k, Forall (fun s => length s = k) (fold_right join [] ls)) /\ length (fold_right join [] ls) = N).
  { induction H as [|l ls [[k Hk] HL] H IH]; [left; reflexivity|]. right. rewrite fold_join_nil.
    destruct IH as [->|[[k2 I1] I2]].
    - cbn [fold_right]. assert (join l [] = l) as -> by (destruct l; reflexivity). split; [exists k; exact Hk|exact HL].
    - destruct (join_even l _ k k2 ltac:(rewrite HL, I2; reflexivity) Hk I1) as [Q1 Q2]. split; [eexists; exact Q1|congruence]. }
  destruct G as [->|[G _]]; [exists O; constructor|exact G].
Qed.

Lemma xstep_same m n e fuel c o c' l : same c -> xstep m n e fuel c o = Ok (c', l) -> same c' /\ exists k, Forall (fun s => length s = k) l.
Proof.
  intros H E. destruct o; cbn [xstep] in E.
  - inversion E; subst. split; [exact H|exists O; constructor].
  - binv E r E1. destruct r as [c1 ret]. assert (c' = c1) as -> by congruence. assert (l = []) as -> by congruence.
    split; [|exists O; constructor]. unfold attach_track in E1. binv E1 r E2. destruct r as [t1 ret1]. destruct (ret1 =? 0).
    + assert (c1 = attach_master (x_tracks c (cx_tracks c ++ [(id, t1)]))) as -> by congruence.
      unfold attach_master. destruct (BKTimeIsGreater _ _); [|exact H]. destruct (existsb _ _); exact H.
    + assert (c1 = c) as -> by congruence. exact H.
  - inversion E; subst. split; [exact H|exists O; constructor].
  - binv E ts E1. assert (c' = x_tracks c ts) as -> by congruence. assert (l = []) as -> by congruence. split; [exact H|exists O; constructor].
  - inversion E; subst. split; [|exists O; constructor]. unfold set_clock_period. destruct (BKTimeIsGreater _ _); exact H.
  - inversion E; subst. split; [|exists O; constructor]. destruct H as (t & k & K & H). exists t, k. split; [exact K|].
    cbn. apply Forall_map. eapply Forall_impl; [|exact H]. intros b Hb. exact Hb.
  - binv E r E1. destruct r as [[c1 w] l1]. inversion E; subst. apply generate_same in E1; [|apply u32_ge|exact H]. tauto.
  - binv E c1 E1. inversion E; subst. split; [apply (end_same _ _ _ _ _ _ H E1)|exists O; constructor].
  - binv E r E1. destruct r as [[c1 w] l1]. inversion E; subst. apply read_same in E1; [|apply u32_ge|exact H]. tauto.
  - binv E r E1. destruct r as [[c1 w] ls]. inversion E; subst. apply generate_to_same in E1; [|exact H]. destruct E1 as (J1 & J2 & _).
    split; [exact J1|]. apply (fold_join_even _ _ J2).
  - binv E c1 E1. inversion E; subst. split; [|exists O; constructor]. unfold BKContextReset in E1. binv E1 ts E2.
    match type of E1 with Ok ?x = _ => assert (c' = x) as -> by congruence end. exists 0, 0. split; [lia|]. cbn. apply Forall_map.
    apply Forall_forall. intros b _. split; reflexivity.
Qed.

Lemma init_same nc rate period : same (BKContextInit nc rate period).
Proof. exists 0, 0. split; [lia|]. cbn. apply Forall_forall. intros b Hb. apply repeat_spec in Hb. subst. split; reflexivity. Qed.

Theorem runs_same m n e fuel : forall ops c c' ls, same c -> xruns m n e fuel c ops = Ok (c', ls) ->
  same c' /\ Forall (fun l => exists k, Forall (fun s => length s = k) l) ls.
Proof.
  induction ops as [|o ops IH]; intros c c' ls H E; cbn [xruns] in E.
  - inversion E; subst. split; [exact H|constructor].
  - binv E r E1. destruct r as [c1 l]. binv E r E2. destruct r as [c2 ls2]. inversion E; subst.
    destruct (xstep_same _ _ _ _ _ _ _ _ H E1) as [H1 H2]. apply IH in E2; [|exact H1]. destruct E2 as [I1 I2]. split; [exact I1|constructor; assumption].
Qed.
