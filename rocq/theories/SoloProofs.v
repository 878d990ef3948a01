(** Tracks of a context do not influence each other (C102) and their audio adds up (C103). *)
From Verif Require Import CInt CIntFacts TimeModel Kernels BufferModel BufferSpec BufferProofs BufferProofs2 DataModel UnitModel TrackModel TrackTime UnitShift
  ContextModel ContextSpec ContextSame ContextShift ContextRun ContextChunk ContextGen ContextGen2 ContextHist SoloSpec.
Ltac Zify.zify_post_hook ::= idtac.

Section Keep.
Variable keep : Z -> bool.
Notation pt := (part keep).

Lemma part_cons i t ts : pt ((i, t) :: ts) = if keep i then (i, t) :: pt ts else pt ts.
Proof. reflexivity. Qed.
Lemma part_app a b : pt (a ++ b) = pt a ++ pt b.
Proof. apply filter_app. Qed.

Lemma on_track_kept f id : keep id = true -> forall ts ts1, on_track f ts id = Ok ts1 -> on_track f (pt ts) id = Ok (pt ts1).
Proof.
  intros K. induction ts as [|[i t] ts IH]; intros ts1 E; cbn [on_track] in E.
  - assert (ts1 = []) as -> by congruence. reflexivity.
  - destruct (Z.eqb_spec i id) as [->|N].
    + binv E t1 E1. assert (ts1 = (id, t1) :: ts) as -> by congruence. rewrite !part_cons, K. cbn [on_track]. rewrite Z.eqb_refl, E1. reflexivity.
    + binv E ts2 E1. assert (ts1 = (i, t) :: ts2) as -> by congruence. rewrite !part_cons. specialize (IH _ E1). destruct (keep i); [|exact IH].
      cbn [on_track]. destruct (Z.eqb_spec i id); [contradiction|]. rewrite IH. reflexivity.
Qed.
Lemma on_track_other f id : keep id = false -> forall ts ts1, on_track f ts id = Ok ts1 -> pt ts1 = pt ts.
Proof.
  intros K. induction ts as [|[i t] ts IH]; intros ts1 E; cbn [on_track] in E.
  - assert (ts1 = []) as -> by congruence. reflexivity.
  - destruct (Z.eqb_spec i id) as [->|N].
    + binv E t1 E1. assert (ts1 = (id, t1) :: ts) as -> by congruence. rewrite !part_cons, K. reflexivity.
    + binv E ts2 E1. assert (ts1 = (i, t) :: ts2) as -> by congruence. rewrite !part_cons, (IH _ E1). reflexivity.
Qed.

Lemma call_tracks_part fuel calls : forall ts ts1, call_tracks fuel ts calls = Ok ts1 ->
  call_tracks fuel (pt ts) (filter (fun c => keep (fst c)) calls) = Ok (pt ts1).
Proof.
  induction calls as [|c calls IH]; intros ts ts1 E; cbn [call_tracks filter] in *.
  - assert (ts1 = ts) as -> by congruence. reflexivity.
  - binv E ts2 E1. destruct (keep (fst c)) eqn:K.
    + cbn [call_tracks]. unfold call_track in *. rewrite (on_track_kept _ _ K _ _ E1). cbn [bind]. apply IH, E.
    + unfold call_track in E1. rewrite <- (on_track_other _ _ K _ _ E1). apply IH, E.
Qed.

Lemma tick_tracks_part fuel : forall ts ts1, tick_tracks fuel ts = Ok ts1 -> tick_tracks fuel (pt ts) = Ok (pt ts1).
Proof.
  induction ts as [|[i t] ts IH]; intros ts1 E; cbn [tick_tracks] in E.
  - assert (ts1 = []) as -> by congruence. reflexivity.
  - binv E t1 E1. binv E ts2 E2. assert (ts1 = (i, t1) :: ts2) as -> by congruence. rewrite !part_cons. specialize (IH _ E2).
    destruct (keep i); [|exact IH]. cbn [tick_tracks]. rewrite E1. cbn [bind]. rewrite IH. reflexivity.
Qed.

Lemma reset_tracks_part fuel : forall ts ts1, reset_tracks fuel ts = Ok ts1 -> reset_tracks fuel (pt ts) = Ok (pt ts1).
Proof.
  induction ts as [|[i t] ts IH]; intros ts1 E; cbn [reset_tracks] in E.
  - assert (ts1 = []) as -> by congruence. reflexivity.
  - binv E t1 E1. binv E ts2 E2. assert (ts1 = (i, t1) :: ts2) as -> by congruence. rewrite !part_cons. specialize (IH _ E2).
    destruct (keep i); [|exact IH]. cbn [reset_tracks]. rewrite E1. cbn [bind]. rewrite IH. reflexivity.
Qed.

Lemma clock_tick_part e fuel ts k ts1 k1 : BKClockTick e fuel ts k = Ok (ts1, k1) -> BKClockTick (only_env keep e) fuel (pt ts) k = Ok (pt ts1, k1).
Proof.
  unfold BKClockTick. destruct (BKTimeIsEqual _ _); intros E.
  - binv E ts2 E1. binv E ts3 E2. binv E r E3. destruct r as [p nt].
    assert (ts1 = ts3) as -> by congruence. cbn [only_env e_next e_calls].
    rewrite (call_tracks_part _ _ _ _ E1). cbn [bind].
    assert (X : (if k_id k =? 0 then tick_tracks fuel (pt ts2) else Ok (pt ts2)) = Ok (pt ts3)).
    { destruct (k_id k =? 0); [apply tick_tracks_part, E2|congruence]. }
    rewrite X. cbn [bind]. rewrite E3. cbn [bind]. congruence.
  - assert (ts1 = ts) as -> by congruence. congruence.
Qed.

Lemma tick_clocks_part e fuel ks : forall ts nt ts1 ks1 nt1, tick_clocks e fuel ts ks nt = Ok (ts1, ks1, nt1) ->
  tick_clocks (only_env keep e) fuel (pt ts) ks nt = Ok (pt ts1, ks1, nt1).
Proof.
  induction ks as [|k ks IH]; intros ts nt ts1 ks1 nt1 E; cbn [tick_clocks] in *.
  - assert (ts1 = ts) as -> by congruence. congruence.
  - binv E r E1. destruct r as [ts2 k2]. binv E r E2. destruct r as [[ts3 ks3] nt3].
    rewrite (clock_tick_part _ _ _ _ _ _ E1). cbn [bind]. rewrite (IH _ _ _ _ _ E2). cbn [bind].
    assert (ts1 = ts3) as -> by congruence. congruence.
Qed.

(** The context [c'] has the tracks [keep] of [c]; the clocks are the same. *)
Record lone (c c' : context) : Prop := {
  ln_rate : cx_rate c' = cx_rate c;
  ln_period : cx_period c' = cx_period c;
  ln_current : cx_current c' = cx_current c;
  ln_delta : cx_delta c' = cx_delta c;
  ln_clocks : cx_clocks c' = cx_clocks c;
  ln_tracks : cx_tracks c' = pt (cx_tracks c);
  ln_channels : length (cx_channels c') = length (cx_channels c) }.

Lemma advance_part e fuel c c' c1 q : lone c c' -> BKClocksAdvance e fuel c = Ok (c1, q) ->
  exists c1', BKClocksAdvance (only_env keep e) fuel c' = Ok (c1', q) /\ lone c1 c1' /\ cx_channels c1' = cx_channels c' /\ cx_channels c1 = cx_channels c.
Proof.
  intros [L1 L2 L3 L4 L5 L6 L7] E. unfold BKClocksAdvance in *. binv E r E1. destruct r as [[ts ks] nt]. rewrite L6, L5, (tick_clocks_part _ _ _ _ _ _ _ _ E1). cbn [bind].
  rewrite L3. binv E d E2. rewrite E2. cbn [bind]. cbv zeta in *. binv E ks2 E3. rewrite E3. cbn [bind]. binv E t E4. rewrite E4. cbn [bind].
  match type of E with Ok (?x, ?y) = _ => assert (c1 = x) as -> by congruence; assert (q = y) as -> by congruence end.
  eexists. split; [reflexivity|]. split; [split; assumption || reflexivity|]. split; reflexivity.
Qed.

Lemma run_tracks_part fuel e : forall ts chs ts1 chs1, run_tracks fuel ts chs e = Ok (ts1, chs1) ->
  forall chs' ts1' chs1', run_tracks fuel (pt ts) chs' e = Ok (ts1', chs1') -> ts1' = pt ts1.
Proof.
  induction ts as [|[i t] ts IH]; intros chs ts1 chs1 E chs' ts1' chs1' E'; cbn [run_tracks] in E.
  - assert (ts1 = []) as -> by congruence. cbn in E'. change (pt []) with (@nil (Z * track)). congruence.
  - binv E r E1. destruct r as [t1 ls]. binv E chs2 E2. binv E r E3. destruct r as [ts2 chs3].
    assert (ts1 = (i, t1) :: ts2) as -> by congruence. rewrite !part_cons in *. destruct (keep i).
    + cbn [run_tracks] in E'. rewrite E1 in E'. cbn [bind] in E'. binv E' chs4 E4. binv E' r E5. destruct r as [ts4 chs5].
      assert (ts1' = (i, t1) :: ts4) as -> by congruence. f_equal. apply (IH _ _ _ E3 _ _ _ E5).
    + apply (IH _ _ _ E3 _ _ _ E').
Qed.

Lemma mix_length time : forall chs ls chs1, mix_channels chs ls time = Ok chs1 -> length chs1 = length chs.
Proof.
  induction chs as [|b chs IH]; intros ls chs1 E; cbn [mix_channels] in E; [congruence|].
  binv E b1 E1. binv E chs2 E2. match type of E with Ok ?x = _ => assert (chs1 = x) as -> by congruence end. cbn [length]. rewrite (IH _ _ E2). reflexivity.
Qed.
Lemma run_tracks_length fuel e : forall ts chs ts1 chs1, run_tracks fuel ts chs e = Ok (ts1, chs1) -> length chs1 = length chs.
Proof.
  induction ts as [|[i t] ts IH]; intros chs ts1 chs1 E; cbn [run_tracks] in E; [congruence|].
  binv E r E1. destruct r as [t1 ls]. binv E chs2 E2. binv E r E3. destruct r as [ts2 chs3].
  assert (chs1 = chs3) as -> by congruence. rewrite (IH _ _ _ E3). apply (mix_length _ _ _ _ E2).
Qed.

Lemma run_units_part fuel c c' time c1 c1' : lone c c' -> run_units fuel c time = Ok c1 -> run_units fuel c' time = Ok c1' -> lone c1 c1'.
Proof.
  intros [L1 L2 L3 L4 L5 L6 L7] E E'. unfold run_units in *. binv E r E1. destruct r as [ts chs]. binv E' r E2. destruct r as [ts' chs'].
  assert (c1 = x_channels (x_tracks c ts) chs) as -> by congruence. assert (c1' = x_channels (x_tracks c' ts') chs') as -> by congruence.
  rewrite L6 in E2. split; cbn [x_channels x_tracks cx_rate cx_period cx_current cx_delta cx_clocks cx_tracks cx_channels]; try assumption.
  - apply (run_tracks_part _ _ _ _ _ _ E1 _ _ _ E2).
  - rewrite (run_tracks_length _ _ _ _ _ _ E1), (run_tracks_length _ _ _ _ _ _ E2). exact L7.
Qed.

Lemma run_loop_part e fuel endTime : forall n n' c c' time c1 t1 c1' t1', lone c c' -> run_loop n e fuel c time endTime = Ok (c1, t1) ->
  run_loop n' (only_env keep e) fuel c' time endTime = Ok (c1', t1') -> lone c1 c1' /\ t1' = t1.
Proof.
  induction n as [|n IH]; intros n' c c' time c1 t1 c1' t1' L E E'.
  - cbn [run_loop] in E. destruct (time <? endTime) eqn:T; [discriminate|]. assert (c1 = c) as -> by congruence.
    destruct n'; cbn [run_loop] in E'; rewrite T in E'; (assert (c1' = c') as -> by congruence; split; [exact L|congruence]).
  - cbn [run_loop] in E. destruct (time <? endTime) eqn:T.
    + binv E r E1. destruct r as [c2 q]. cbv zeta in E. binv E c3 E2. destruct n' as [|n']; cbn [run_loop] in E'; rewrite T in E'; [discriminate|].
      destruct (advance_part _ _ _ _ _ _ L E1) as (c2' & A & L2 & _). rewrite A in E'. cbn [bind] in E'. cbv zeta in E'. binv E' c3' E2'.
      apply (IH _ _ _ _ _ _ _ _ (run_units_part _ _ _ _ _ _ L2 E2 E2') E E').
    + assert (c1 = c) as -> by congruence. destruct n'; cbn [run_loop] in E'; rewrite T in E'; (assert (c1' = c') as -> by congruence; split; [exact L|congruence]).
Qed.

Lemma part_end T ts : pt (map (end_track T) ts) = map (end_track T) (pt ts).
Proof. induction ts as [|[i t] ts IH]; [reflexivity|]. cbn [map end_track fst]. unfold end_track at 1. cbn [fst snd]. rewrite !part_cons, IH. destruct (keep i); reflexivity. Qed.

Lemma read_channels_length : forall chs size chs1 n l, read_channels chs size = Ok (chs1, n, l) -> length chs1 = length chs.
Proof.
  induction chs as [|b chs IH]; intros size chs1 n l E; cbn [read_channels] in E; [congruence|].
  binv E r E1. destruct r as [b1 s]. binv E r E2. destruct r as [[chs2 sz] l2]. assert (chs1 = b1 :: chs2) as -> by congruence. cbn. rewrite (IH _ _ _ _ E2). reflexivity.
Qed.

Lemma chunk_part n n' e fuel c c' k c1 k1 l c1' k1' l' : lone c c' -> chunk n e fuel c k = Ok (c1, k1, l) -> chunk n' (only_env keep e) fuel c' k = Ok (c1', k1', l') ->
  lone c1 c1'.
Proof.
  intros L E E'. unfold chunk, BKContextEnd, BKContextRun in *. set (T := u32 _) in *. pose proof L as [L1 L2 L3 L4 L5 L6 L7].
  assert (X : exists c2 c2', lone c2 c2' /\ BKContextRead (x_channels (x_tracks (x_delta c2 (u32 (cx_delta c2 - T))) (map (end_track T) (cx_tracks c2))) (map (fun b => BKBufferShift b T) (cx_channels c2))) k = Ok (c1, k1, l)
    /\ BKContextRead (x_channels (x_tracks (x_delta c2' (u32 (cx_delta c2' - T))) (map (end_track T) (cx_tracks c2'))) (map (fun b => BKBufferShift b T) (cx_channels c2'))) k = Ok (c1', k1', l')).
  { rewrite L5, L4 in E'. destruct (cx_clocks c) as [|v ks].
    - binv E c2 E1. binv E1 c3 E2. cbv zeta in E1. binv E' c2' E1'. binv E1' c3' E2'. cbv zeta in E1'.
      exists c3, c3'. split; [apply (run_units_part _ _ _ _ _ _ L E2 E2')|].
      match type of E1 with Ok ?x = _ => assert (c2 = x) as -> by congruence end. match type of E1' with Ok ?x = _ => assert (c2' = x) as -> by congruence end.
      split; [exact E|exact E'].
    - binv E c2 E1. binv E1 c3 E2. cbv zeta in E1. binv E2 r E3. destruct r as [c4 t4].
      binv E' c2' E1'. binv E1' c3' E2'. cbv zeta in E1'. binv E2' r E3'. destruct r as [c4' t4'].
      destruct (run_loop_part _ _ _ _ _ _ _ _ _ _ _ _ L E3 E3') as (L' & ->).
      exists c3, c3'. assert (c3 = x_delta c4 t4) as -> by congruence. assert (c3' = x_delta c4' t4) as -> by congruence.
      split; [destruct L' as [M1 M2 M3 M4 M5 M6 M7]; split; try assumption; reflexivity|].
      match type of E1 with Ok ?x = _ => assert (c2 = x) as -> by congruence end. match type of E1' with Ok ?x = _ => assert (c2' = x) as -> by congruence end.
      split; [exact E|exact E']. }
  destruct X as (c2 & c2' & [M1 M2 M3 M4 M5 M6 M7] & R & R'). unfold BKContextRead in *. binv R r R1. destruct r as [[chs sz] l1]. binv R' r R1'. destruct r as [[chs' sz'] l1'].
  match type of R with Ok (?x, _, _) = _ => assert (c1 = x) as -> by congruence end. match type of R' with Ok (?x, _, _) = _ => assert (c1' = x) as -> by congruence end.
  apply read_channels_length in R1. apply read_channels_length in R1'. cbn [x_channels cx_channels] in *. rewrite map_length in *.
  split; cbn [x_channels x_tracks x_delta cx_rate cx_period cx_current cx_delta cx_clocks cx_tracks cx_channels]; try assumption.
  - congruence.
  - rewrite M6. symmetry. apply part_end.
  - congruence.
Qed.
End Keep.

(** ** Sums *)

Lemma Forall3_of {A B C} (P : A -> B -> C -> Prop) a b c : forall la lb lc, length lb = length la -> length lc = length la ->
  (forall i, (i < length la)%nat -> P (nth i la a) (nth i lb b) (nth i lc c)) -> Forall3 P la lb lc.
Proof.
  induction la as [|x la IH]; intros [|y lb] [|z lc] L1 L2 H; try discriminate; constructor.
  - apply (H O). cbn. lia.
  - apply IH; [cbn in L1; lia|cbn in L2; lia|]. intros i Hi. apply (H (S i)). cbn. lia.
Qed.
Lemma Forall3_nth {A B C} (P : A -> B -> C -> Prop) a b c la lb lc : Forall3 P la lb lc ->
  length lb = length la /\ length lc = length la /\ (forall i, (i < length la)%nat -> P (nth i la a) (nth i lb b) (nth i lc c)).
Proof.
  induction 1 as [|x y z la lb lc H F (I1 & I2 & I3)]; cbn [length]; [repeat split; intros; lia|]. split; [lia|]. split; [lia|].
  intros [|i] Hi; [exact H|]. apply I3. lia.
Qed.
Lemma Forall3_map {A B C A' B' C'} (P : A' -> B' -> C' -> Prop) (f : A -> A') (g : B -> B') (h : C -> C') la lb lc :
  Forall3 (fun x y z => P (f x) (g y) (h z)) la lb lc -> Forall3 P (map f la) (map g lb) (map h lc).
Proof. induction 1; cbn; constructor; assumption. Qed.
Lemma Forall3_impl {A B C} (P Q : A -> B -> C -> Prop) la lb lc : (forall x y z, P x y z -> Q x y z) -> Forall3 P la lb lc -> Forall3 Q la lb lc.
Proof. intros H. induction 1; constructor; auto. Qed.
Lemma Forall3_app {A B C} (P : A -> B -> C -> Prop) la lb lc la' lb' lc' : Forall3 P la lb lc -> Forall3 P la' lb' lc' -> Forall3 P (la ++ la') (lb ++ lb') (lc ++ lc').
Proof. induction 1; cbn; [auto|]. constructor; auto. Qed.

(** Rounding errors of the filter. *)
Definition near (a a1 a2 : Z) : Prop := -1024 <= a - (a1 + a2) <= 512.

Lemma near_step a a1 a2 x1 x2 : near a a1 a2 -> near (a - a / 512 + (x1 + x2)) (a1 - a1 / 512 + x1) (a2 - a2 / 512 + x2).
Proof. unfold near. intros H. Z.div_mod_to_equations. lia. Qed.

Lemma near_integrate d d1 d2 : Forall3 (fun x x1 x2 => x = x1 + x2) d d1 d2 -> forall a a1 a2, near a a1 a2 ->
  Forall3 near (integrate a d) (integrate a1 d1) (integrate a2 d2) /\ near (integrate_end a d) (integrate_end a1 d1) (integrate_end a2 d2).
Proof.
  induction 1 as [|x x1 x2 d d1 d2 -> F IH]; intros a a1 a2 N; cbn [integrate].
  - split; [constructor|exact N].
  - pose proof (near_step a a1 a2 x1 x2 N) as N'. destruct (IH _ _ _ N') as (I1 & I2). split; [constructor; assumption|].
    unfold integrate_end in *. cbn [integrate]. rewrite !last_cons. exact I2.
Qed.

Lemma saturate_free a : is_s32 a -> unlimited (saturate a) -> saturate a = a / 16384.
Proof.
  unfold is_s32, unlimited, saturate. intros H. cbv zeta.
  destruct (a / 16384 >? 65535); [lia|]. destruct (a / 16384 >? 32767); [lia|]. destruct (a / 16384 <? -65536); [lia|]. destruct (a / 16384 <? -32768); lia.
Qed.
Lemma near_sums a a1 a2 : is_s32 a -> is_s32 a1 -> is_s32 a2 -> near a a1 a2 -> sums (saturate a) (saturate a1) (saturate a2).
Proof.
  intros S S1 S2 N U U1 U2. rewrite (saturate_free a S U), (saturate_free a1 S1 U1), (saturate_free a2 S2 U2). unfold near in N.
  Z.div_mod_to_equations. lia.
Qed.
Lemma near_samples l l1 l2 : Forall is_s32 l -> Forall is_s32 l1 -> Forall is_s32 l2 -> Forall3 near l l1 l2 -> Forall3 sums (map saturate l) (map saturate l1) (map saturate l2).
Proof.
  intros S S1 S2 F. revert S S1 S2. induction F; intros S S1 S2; cbn [map]; [constructor|]. inversion S; inversion S1; inversion S2; subst.
  constructor; [apply near_sums; assumption|auto].
Qed.

(** Channels whose frames add up. *)
Record adds (b b1 b2 : buffer) : Prop := {
  ad_ok : buffer_ok b; ad_ok1 : buffer_ok b1; ad_ok2 : buffer_ok b2;
  ad_time : b_time b = 0; ad_time1 : b_time b1 = 0; ad_time2 : b_time b2 = 0;
  ad_pulse1 : b_pulse b1 = b_pulse b; ad_pulse2 : b_pulse b2 = b_pulse b;
  ad_cells : forall i, 0 <= i -> cell (b_frames b) i = cell (b_frames b1) i + cell (b_frames b2) i;
  ad_near : near (b_accum b) (b_accum b1) (b_accum b2) }.

Lemma adds_swap b b1 b2 : adds b b1 b2 -> adds b b2 b1.
Proof. intros []. split; try assumption; [intros i Hi; rewrite ad_cells0 by lia; lia|]. unfold near in *. lia. Qed.

Lemma adds_mix b b1 b2 l t b' b1' : adds b b1 b2 -> add_all b l = Ok b' -> add_all b1 l = Ok b1' -> adds (BKBufferEnd b' t) (BKBufferEnd b1' t) b2.
Proof.
  intros [O O1 O2 T T1 T2 P1 P2 C N] E E1. destruct (add_all_spec _ _ _ O E) as (A1 & A2 & A3). destruct (add_all_spec _ _ _ O1 E1) as (B1 & B2 & B3).
  assert (T' : b_time b' = 0) by (rewrite A2; exact T). assert (T1' : b_time b1' = 0) by (rewrite B2; exact T1).
  assert (P' : b_pulse b' = b_pulse b) by (rewrite A2; reflexivity). assert (P1' : b_pulse b1' = b_pulse b1) by (rewrite B2; reflexivity).
  assert (AC : b_accum b' = b_accum b) by (rewrite A2; reflexivity). assert (AC1 : b_accum b1' = b_accum b1) by (rewrite B2; reflexivity).
  split; [apply end_ok, A1|apply end_ok, B1|exact O2|exact T'|exact T1'|exact T2| | | |]; cbn [BKBufferEnd b_pulse b_frames b_accum].
  - congruence.
  - congruence.
  - intros i Hi. rewrite A3, B3, C by lia. unfold local_pulses. rewrite T, T1, P1. lia.
  - rewrite AC, AC1. exact N.
Qed.

Lemma mix_adds t : forall chs chs1 chs2, Forall3 adds chs chs1 chs2 -> forall ls chs' chs1', mix_channels chs ls t = Ok chs' -> mix_channels chs1 ls t = Ok chs1' ->
  Forall3 adds chs' chs1' chs2.
Proof.
  induction 1 as [|b b1 b2 chs chs1 chs2 A F IH]; intros ls chs' chs1' E E1; cbn [mix_channels] in *.
  - assert (chs' = []) as -> by congruence. assert (chs1' = []) as -> by congruence. constructor.
  - binv E b' X1. binv E r X2. binv E1 b1' X3. binv E1 r1 X4.
    match type of E with Ok ?x = _ => assert (chs' = x) as -> by congruence end. match type of E1 with Ok ?x = _ => assert (chs1' = x) as -> by congruence end.
    constructor; [apply (adds_mix _ _ _ _ _ _ _ A X1 X3)|apply (IH _ _ _ X2 X4)].
Qed.

Lemma Forall3_swap {A B C} (P : A -> B -> C -> Prop) (Q : A -> C -> B -> Prop) la lb lc : (forall a b c, P a b c -> Q a c b) -> Forall3 P la lb lc -> Forall3 Q la lc lb.
Proof. intros H. induction 1; constructor; auto. Qed.

Section Sums.
Variable keep : Z -> bool.
Notation drop := (fun i => negb (keep i)).

Lemma run_tracks_adds fuel t : forall ts chs chs1 chs2 ts' chs' ts1' chs1' ts2' chs2', Forall3 adds chs chs1 chs2 -> run_tracks fuel ts chs t = Ok (ts', chs') ->
  run_tracks fuel (part keep ts) chs1 t = Ok (ts1', chs1') -> run_tracks fuel (part drop ts) chs2 t = Ok (ts2', chs2') -> Forall3 adds chs' chs1' chs2'.
Proof.
  induction ts as [|[i tr] ts IH]; intros chs chs1 chs2 ts' chs' ts1' chs1' ts2' chs2' A E E1 E2.
  - cbn in E, E1, E2. assert (chs' = chs) as -> by congruence. assert (chs1' = chs1) as -> by congruence. assert (chs2' = chs2) as -> by congruence. exact A.
  - cbn [run_tracks] in E. binv E r X1. destruct r as [t1 ls]. binv E ch X2. binv E r X3. destruct r as [ts2 ch3]. assert (chs' = ch3) as -> by congruence.
    rewrite part_cons in E1, E2. destruct (keep i); cbn [negb] in E2.
    + cbn [run_tracks] in E1. rewrite X1 in E1. cbn [bind] in E1. binv E1 ch4 X4. binv E1 r X5. destruct r as [ts5 ch5]. assert (chs1' = ch5) as -> by congruence.
      apply (IH _ _ _ _ _ _ _ _ _ (mix_adds _ _ _ _ A _ _ _ X2 X4) X3 X5 E2).
    + cbn [run_tracks] in E2. rewrite X1 in E2. cbn [bind] in E2. binv E2 ch4 X4. binv E2 r X5. destruct r as [ts5 ch5]. assert (chs2' = ch5) as -> by congruence.
      apply (Forall3_swap adds adds) in A; [|apply adds_swap]. pose proof (mix_adds _ _ _ _ A _ _ _ X2 X4) as A'.
      apply (Forall3_swap adds adds) in A'; [|apply adds_swap]. apply (IH _ _ _ _ _ _ _ _ _ A' X3 E1 X5).
Qed.

Lemma run_loop_adds e fuel endTime : forall n n1 n2 c c1 c2 time c' t' c1' t1' c2' t2', lone keep c c1 -> lone drop c c2 -> Forall3 adds (cx_channels c) (cx_channels c1) (cx_channels c2) ->
  run_loop n e fuel c time endTime = Ok (c', t') -> run_loop n1 (only_env keep e) fuel c1 time endTime = Ok (c1', t1') ->
  run_loop n2 (only_env drop e) fuel c2 time endTime = Ok (c2', t2') -> Forall3 adds (cx_channels c') (cx_channels c1') (cx_channels c2').
Proof.
  induction n as [|n IH]; intros n1 n2 c c1 c2 time c' t' c1' t1' c2' t2' L1 L2 A E E1 E2.
  - cbn [run_loop] in E. destruct (time <? endTime) eqn:T; [discriminate|]. assert (c' = c) as -> by congruence.
    assert (c1' = c1) as -> by (destruct n1; cbn [run_loop] in E1; rewrite T in E1; congruence).
    assert (c2' = c2) as -> by (destruct n2; cbn [run_loop] in E2; rewrite T in E2; congruence). exact A.
  - cbn [run_loop] in E. destruct (time <? endTime) eqn:T.
    + binv E r X. destruct r as [c3 q]. cbv zeta in E. binv E c4 Y.
      destruct n1 as [|n1]; cbn [run_loop] in E1; rewrite T in E1; [discriminate|]. destruct n2 as [|n2]; cbn [run_loop] in E2; rewrite T in E2; [discriminate|].
      destruct (advance_part _ _ _ _ _ _ _ L1 X) as (c3a & XA & LA & CA & CC). destruct (advance_part _ _ _ _ _ _ _ L2 X) as (c3b & XB & LB & CB & _).
      rewrite XA in E1. rewrite XB in E2. cbn [bind] in E1, E2. cbv zeta in E1, E2. binv E1 c4a YA. binv E2 c4b YB.
      pose proof (run_units_part _ _ _ _ _ _ _ LA Y YA) as MA. pose proof (run_units_part _ _ _ _ _ _ _ LB Y YB) as MB.
      apply (IH _ _ _ _ _ _ _ _ _ _ _ _ MA MB) with (4 := E2) (3 := E1) (2 := E).
      unfold run_units in Y, YA, YB. binv Y r W. destruct r as [ts chs]. binv YA r WA. destruct r as [tsa chsa]. binv YB r WB. destruct r as [tsb chsb].
      assert (c4 = x_channels (x_tracks c3 ts) chs) as -> by congruence. assert (c4a = x_channels (x_tracks c3a tsa) chsa) as -> by congruence.
      assert (c4b = x_channels (x_tracks c3b tsb) chsb) as -> by congruence. cbn [x_channels cx_channels].
      rewrite (ln_tracks _ _ _ LA) in WA. rewrite (ln_tracks _ _ _ LB) in WB.
      rewrite <- CC, <- CA, <- CB in A. apply (run_tracks_adds _ _ _ _ _ _ _ _ _ _ _ _ A W WA WB).
    + assert (c' = c) as -> by congruence.
      assert (c1' = c1) as -> by (destruct n1; cbn [run_loop] in E1; rewrite T in E1; congruence).
      assert (c2' = c2) as -> by (destruct n2; cbn [run_loop] in E2; rewrite T in E2; congruence). exact A.
Qed.
End Sums.

(** ** Chunks *)

Lemma only_env_plain keep e : env_plain e -> env_plain (only_env keep e).
Proof. intros H id n t. destruct (H id n t) as [H1 H2]. split; [|exact H2]. cbn [only_env e_calls]. apply Forall_filter. exact H1. Qed.

Lemma rel_adds k s s1 s2 b b1 b2 c c1 c2 : 0 <= k <= 4129 -> rel k s b c -> rel k s1 b1 c1 -> rel k s2 b2 c2 -> adds b b1 b2 -> adds c c1 c2 /\ Forall3 sums s s1 s2.
Proof.
  intros K (A1 & A2 & A3 & A4 & A5 & A6 & A7 & A8) (B1 & B2 & B3 & B4 & B5 & B6 & B7 & B8) (D1 & D2 & D3 & D4 & D5 & D6 & D7 & D8) A. pose proof capacity_val as CV.
  assert (SUM : Forall3 (fun x x1 x2 => x = x1 + x2) (firstn (Z.to_nat k) (b_frames b)) (firstn (Z.to_nat k) (b_frames b1)) (firstn (Z.to_nat k) (b_frames b2))).
  { destruct A1 as (L & _). destruct B1 as (L1 & _). destruct D1 as (L2 & _).
    apply (Forall3_of _ 0 0 0); [rewrite !firstn_length; lia|rewrite !firstn_length; lia|]. intros i Hi. rewrite firstn_length in Hi. rewrite !nth_firstn_lt by lia.
    pose proof (ad_cells _ _ _ A (Z.of_nat i) ltac:(lia)) as C. unfold cell in C. rewrite Nat2Z.id in C. exact C. }
  destruct (near_integrate _ _ _ SUM _ _ _ (ad_near _ _ _ A)) as (N1 & N2).
  assert (S : is_s32 (b_accum b)) by (destruct A1 as (_ & _ & _ & _ & X & _); exact X).
  assert (S1 : is_s32 (b_accum b1)) by (destruct B1 as (_ & _ & _ & _ & X & _); exact X).
  assert (S2 : is_s32 (b_accum b2)) by (destruct D1 as (_ & _ & _ & _ & X & _); exact X).
  destruct (read_loop_spec (firstn (Z.to_nat k) (b_frames b)) _ S) as [(a & R1 & R2 & _ & R3)|(R1 & _)]; [|congruence].
  destruct (read_loop_spec (firstn (Z.to_nat k) (b_frames b1)) _ S1) as [(a1 & Q1 & Q2 & _ & Q3)|(Q1 & _)]; [|congruence].
  destruct (read_loop_spec (firstn (Z.to_nat k) (b_frames b2)) _ S2) as [(a2 & P1 & P2 & _ & P3)|(P1 & _)]; [|congruence].
  rewrite R1 in A8. rewrite Q1 in B8. rewrite P1 in D8.
  split.
  - split; try assumption; [rewrite <- B6, <- A6; apply A|rewrite <- D6, <- A6; apply A| |].
    + intros i Hi. rewrite A7, B7, D7 by lia. apply A. lia.
    + assert (b_accum c = a) as -> by congruence. assert (b_accum c1 = a1) as -> by congruence. assert (b_accum c2 = a2) as -> by congruence.
      rewrite R2, Q2, P2. exact N2.
  - match type of A8 with Ok (_, ?x) = _ => assert (s = x) as -> by congruence end. match type of B8 with Ok (_, ?x) = _ => assert (s1 = x) as -> by congruence end.
    match type of D8 with Ok (_, ?x) = _ => assert (s2 = x) as -> by congruence end.
    rewrite !map_saturate by assumption. apply near_samples; assumption.
Qed.

Lemma rels_adds k : 0 <= k <= 4129 -> forall chs chs1 chs2, Forall3 adds chs chs1 chs2 -> forall l l1 l2 d d1 d2, rels k l chs d -> rels k l1 chs1 d1 -> rels k l2 chs2 d2 ->
  Forall3 adds d d1 d2 /\ Forall3 (Forall3 sums) l l1 l2.
Proof.
  intros K. induction 1 as [|b b1 b2 chs chs1 chs2 A F IH]; intros l l1 l2 d d1 d2 R R1 R2; inversion R; inversion R1; inversion R2; subst.
  - split; constructor.
  - edestruct IH as (I1 & I2); [eassumption..|].
    destruct (rel_adds k _ _ _ b b1 b2 _ _ _ K ltac:(eassumption) ltac:(eassumption) ltac:(eassumption) A) as (J1 & J2). split; constructor; assumption.
Qed.

Section Three.
Variable keep : Z -> bool.
Notation drop := (fun i => negb (keep i)).
Variable e : env.
Variable fuel : nat.
Hypothesis P : env_plain e.

Lemma late_channels d dl ch c : cx_channels (late d dl ch c) = ch.
Proof. reflexivity. Qed.

Lemma chunk_adds n n1 n2 c c1 c2 k c' k' l c1' k1' l1 c2' k2' l2 : able c -> able c1 -> able c2 -> 0 <= k <= 1024 -> lone keep c c1 -> lone drop c c2 ->
  Forall3 adds (cx_channels c) (cx_channels c1) (cx_channels c2) ->
  chunk n e fuel c k = Ok (c', k', l) -> chunk n1 (only_env keep e) fuel c1 k = Ok (c1', k1', l1) -> chunk n2 (only_env drop e) fuel c2 k = Ok (c2', k2', l2) ->
  Forall3 adds (cx_channels c') (cx_channels c1') (cx_channels c2') /\ Forall3 (Forall3 sums) l l1 l2.
Proof.
  intros [R N] [R1 N1] [R2 N2] K L1 L2 A E E1 E2.
  apply (chunk_spec e fuel c k P R N K) in E. destruct E as (_ & ch & E & RL).
  apply (chunk_spec _ fuel c1 k (only_env_plain keep e P) R1 N1 K) in E1. destruct E1 as (_ & ch1 & E1 & RL1).
  apply (chunk_spec _ fuel c2 k (only_env_plain drop e P) R2 N2 K) in E2. destruct E2 as (_ & ch2 & E2 & RL2).
  rewrite (ln_delta _ _ _ L1) in E1 at 1. rewrite (ln_delta _ _ _ L2) in E2 at 1.
  pose proof (run_loop_adds keep e fuel _ _ _ _ _ _ _ _ _ _ _ _ _ _ L1 L2 A E E1 E2) as A'. rewrite !late_channels in A'.
  apply (rels_adds k ltac:(lia) _ _ _ A' _ _ _ _ _ _ RL RL1 RL2).
Qed.

Lemma generate_part m m' n n' : forall c c' rem w w' c1 w1 l1 c1' w1' l1', able c -> able c' -> lone keep c c' -> 0 <= rem < 4294967296 ->
  generate_loop m n e fuel c rem w = Ok (c1, w1, l1) -> generate_loop m' n' (only_env keep e) fuel c' rem w' = Ok (c1', w1', l1') -> lone keep c1 c1'.
Proof.
  revert m'. induction m as [|m IH]; intros m' c c' rem w w' c1 w1 l1 c1' w1' l1' A A' L B E E'; [discriminate|]. destruct m' as [|m']; [discriminate|].
  rewrite generate_chunk in E, E'. cbv zeta in E, E'. set (k := if rem >? BK_MAX_GENERATE_SAMPLES then BK_MAX_GENERATE_SAMPLES else rem) in *.
  assert (K : 0 <= k <= 1024 /\ k <= rem) by (unfold k, BK_MAX_GENERATE_SAMPLES; destruct (Z.gtb_spec rem 1024); lia).
  binv E r E1. destruct r as [[c2 k2] l2]. binv E' r E1'. destruct r as [[c2' k2'] l2'].
  pose proof (chunk_part _ _ _ _ _ _ _ _ _ _ _ _ _ _ L E1 E1') as L2.
  destruct (chunk_able e fuel P _ _ _ _ _ _ A (proj1 K) E1) as (A2 & -> & _). destruct (chunk_able _ fuel (only_env_plain keep e P) _ _ _ _ _ _ A' (proj1 K) E1') as (A2' & -> & _).
  set (kk := if k =? 0 then rem else k) in *. pose proof (u32_range (rem - kk)) as UR. destruct (negb (u32 (rem - kk) =? 0)).
  - binv E r E2. destruct r as [[c3 w3] l3]. binv E' r E2'. destruct r as [[c3' w3'] l3']. assert (c1 = c3) as -> by congruence. assert (c1' = c3') as -> by congruence.
    apply (IH _ _ _ _ _ _ _ _ _ _ _ _ A2 A2' L2 UR E2 E2').
  - assert (c1 = c2) as -> by congruence. assert (c1' = c2') as -> by congruence. exact L2.
Qed.

Lemma join_sums : forall a a1 a2, Forall3 (Forall3 sums) a a1 a2 -> forall b b1 b2, Forall3 (Forall3 sums) b b1 b2 -> Forall3 (Forall3 sums) (join a b) (join a1 b1) (join a2 b2).
Proof.
  induction 1 as [|x x1 x2 a a1 a2 H F IH]; intros b b1 b2 G; [destruct G; cbn; constructor; assumption|].
  destruct G; cbn [join]; constructor; auto. apply Forall3_app; assumption.
Qed.

Lemma generate_adds m m1 m2 n n1 n2 : forall c c1 c2 rem w w1 w2 c' w' l c1' w1' l1 c2' w2' l2, able c -> able c1 -> able c2 -> lone keep c c1 -> lone drop c c2 ->
  Forall3 adds (cx_channels c) (cx_channels c1) (cx_channels c2) -> 0 <= rem < 4294967296 ->
  generate_loop m n e fuel c rem w = Ok (c', w', l) -> generate_loop m1 n1 (only_env keep e) fuel c1 rem w1 = Ok (c1', w1', l1) ->
  generate_loop m2 n2 (only_env drop e) fuel c2 rem w2 = Ok (c2', w2', l2) ->
  Forall3 adds (cx_channels c') (cx_channels c1') (cx_channels c2') /\ Forall3 (Forall3 sums) l l1 l2.
Proof.
  revert m1 m2. induction m as [|m IH]; intros m1 m2 c c1 c2 rem w w1 w2 c' w' l c1' w1' l1 c2' w2' l2 A A1 A2 L1 L2 AD B E E1 E2; [discriminate|].
  destruct m1 as [|m1]; [discriminate|]. destruct m2 as [|m2]; [discriminate|].
  rewrite generate_chunk in E, E1, E2. cbv zeta in E, E1, E2. set (k := if rem >? BK_MAX_GENERATE_SAMPLES then BK_MAX_GENERATE_SAMPLES else rem) in *.
  assert (K : 0 <= k <= 1024 /\ k <= rem) by (unfold k, BK_MAX_GENERATE_SAMPLES; destruct (Z.gtb_spec rem 1024); lia).
  binv E r X. destruct r as [[d k'] ld]. binv E1 r X1. destruct r as [[d1 k1'] ld1]. binv E2 r X2. destruct r as [[d2 k2'] ld2].
  destruct (chunk_adds _ _ _ _ _ _ _ _ _ _ _ _ _ _ _ _ A A1 A2 (proj1 K) L1 L2 AD X X1 X2) as (AD' & SU).
  pose proof (chunk_part _ _ _ _ _ _ _ _ _ _ _ _ _ _ L1 X X1) as L1'. pose proof (chunk_part _ _ _ _ _ _ _ _ _ _ _ _ _ _ L2 X X2) as L2'.
  destruct (chunk_able e fuel P _ _ _ _ _ _ A (proj1 K) X) as (A' & -> & _).
  destruct (chunk_able _ fuel (only_env_plain keep e P) _ _ _ _ _ _ A1 (proj1 K) X1) as (A1' & -> & _).
  destruct (chunk_able _ fuel (only_env_plain drop e P) _ _ _ _ _ _ A2 (proj1 K) X2) as (A2' & -> & _).
  set (kk := if k =? 0 then rem else k) in *. pose proof (u32_range (rem - kk)) as UR. destruct (negb (u32 (rem - kk) =? 0)).
  - binv E r Y. destruct r as [[c3 w3] l3]. binv E1 r Y1. destruct r as [[c31 w31] l31]. binv E2 r Y2. destruct r as [[c32 w32] l32].
    assert (c' = c3) as -> by congruence. assert (c1' = c31) as -> by congruence. assert (c2' = c32) as -> by congruence.
    assert (l = join ld l3) as -> by congruence. assert (l1 = join ld1 l31) as -> by congruence. assert (l2 = join ld2 l32) as -> by congruence.
    destruct (IH _ _ _ _ _ _ _ _ _ _ _ _ _ _ _ _ _ _ A' A1' A2' L1' L2' AD' UR Y Y1 Y2) as (I1 & I2). split; [exact I1|]. apply join_sums; assumption.
  - assert (c' = d) as -> by congruence. assert (c1' = d1) as -> by congruence. assert (c2' = d2) as -> by congruence.
    assert (l = ld) as -> by congruence. assert (l1 = ld1) as -> by congruence. assert (l2 = ld2) as -> by congruence. auto.
Qed.
End Three.

(** ** Programs *)

(** As [lone]; the master clock may be missing as long as there are no tracks. *)
Record solo (keep : Z -> bool) (c c' : context) : Prop := {
  sl_rate : cx_rate c' = cx_rate c;
  sl_period : cx_period c' = cx_period c;
  sl_current : cx_current c' = cx_current c;
  sl_delta : cx_delta c' = cx_delta c;
  sl_tracks : cx_tracks c' = part keep (cx_tracks c);
  sl_channels : length (cx_channels c') = length (cx_channels c);
  sl_clocks : cx_clocks c' = cx_clocks c \/
    cx_tracks c' = [] /\ cx_clocks c = mk_vclock 0 (cx_period c) 0 0 0 :: cx_clocks c' /\ ~ In 0 (map k_id (cx_clocks c')) }.

Lemma solo_lone keep c c' : solo keep c c' -> cx_tracks c' <> [] -> lone keep c c'.
Proof. intros [S1 S2 S3 S4 S5 S6 [S7|(S7 & _)]] N; [split; assumption|contradiction]. Qed.
Lemma lone_solo keep c c' : lone keep c c' -> solo keep c c'.
Proof. intros [L1 L2 L3 L4 L5 L6 L7]. split; try assumption. left. exact L5. Qed.

Lemma no_master ks : existsb (fun k => k_id k =? 0) ks = false <-> ~ In 0 (map k_id ks).
Proof.
  split; intros H.
  - intros I. apply in_map_iff in I. destruct I as (k & K1 & K2). assert (existsb (fun k => k_id k =? 0) ks = true) by (apply existsb_exists; exists k; split; [exact K2|lia]). congruence.
  - destruct (existsb _ ks) eqn:X; [|reflexivity]. exfalso. apply H. apply existsb_exists in X. destruct X as (k & K1 & K2). apply in_map_iff. exists k. split; [lia|exact K1].
Qed.

Lemma part_filter keep id ts : part keep (filter (fun it => negb (fst it =? id)) ts) = filter (fun it : Z * track => negb (fst it =? id)) (part keep ts).
Proof.
  induction ts as [|[i t] ts IH]; [reflexivity|]. cbn [filter fst]. destruct (i =? id) eqn:D; cbn [negb]; rewrite !part_cons; destruct (keep i); cbn [filter fst]; rewrite ?D; cbn [negb]; rewrite ?IH; reflexivity.
Qed.
Lemma part_filter_other keep id ts : keep id = false -> part keep (filter (fun it => negb (fst it =? id)) ts) = part keep ts.
Proof.
  intros K. induction ts as [|[i t] ts IH]; [reflexivity|]. cbn [filter fst]. destruct (Z.eqb_spec i id) as [->|D]; cbn [negb]; rewrite !part_cons; [rewrite K; exact IH|]. destruct (keep i); rewrite IH; reflexivity.
Qed.

Lemma fst_tracks started ids c : inv started ids c -> ids <> [] -> cx_tracks c <> [].
Proof. intros I N Z. apply N. rewrite <- (iv_ids _ _ _ I), Z. reflexivity. Qed.

Section Run.
Variable keep : Z -> bool.
Variable e : env.
Variable fuel : nat.
Hypothesis P : env_plain e.

(** A call on another track. *)
Lemma step_other m n started ids ops c c' o c1 l s' i' : inv started ids c -> legal started ids (o :: ops) -> inv s' i' c' -> solo keep c c' -> concerns keep o = false ->
  xstep m n e fuel c o = Ok (c1, l) -> solo keep c1 c' /\ l = [] /\ cx_channels c1 = cx_channels c.
Proof.
  intros I LG I' S K E. destruct o; cbn [concerns] in K; try discriminate; cbn [xstep legal] in *.
  - destruct LG as [LG _]. binv E r E1. destruct r as [c2 r]. assert (c1 = c2) as -> by congruence. unfold attach_track in E1. binv E1 x E2. destruct x as [t1 ret].
    destruct (attach_good _ _ _ _ _ _ LG E2) as (-> & _). change (0 =? 0) with true in E1. cbn iota in E1.
    match type of E1 with Ok (?x, _) = _ => assert (c2 = x) as -> by congruence end. split; [|split; [congruence|]].
    + destruct S as [S1 S2 S3 S4 S5 S6 S7]. pose proof (iv_period _ _ _ I) as PP.
      assert (PT : part keep (cx_tracks c ++ [(id, t1)]) = part keep (cx_tracks c)) by (rewrite part_app, part_cons, K; apply app_nil_r).
      unfold attach_master, BKTimeIsGreater. cbn [x_tracks cx_period cx_clocks]. replace (cx_period c >? 0) with true by lia.
      destruct (existsb _ (cx_clocks c)) eqn:X.
      * split; cbn [x_tracks cx_channels cx_delta cx_tracks cx_period cx_clocks cx_current cx_rate]; try assumption. congruence.
      * apply no_master in X. split; cbn [x_tracks x_clocks cx_channels cx_delta cx_tracks cx_period cx_clocks cx_current cx_rate]; try assumption; [congruence|].
        right. destruct S7 as [S7|(_ & S7 & _)]; [|rewrite S7 in X; exfalso; apply X; left; reflexivity]. rewrite S7. split; [|split; [reflexivity|exact X]].
        destruct (cx_tracks c') as [|it ts] eqn:T; [reflexivity|]. exfalso. apply X. rewrite <- S7. apply (iv_master _ _ _ I'). left.
        rewrite <- (iv_ids _ _ _ I'), T. discriminate.
    + unfold attach_master. cbn [x_tracks cx_period cx_clocks]. destruct (BKTimeIsGreater _ _); [|reflexivity]. destruct (existsb _ _); reflexivity.
  - assert (c1 = detach_track c id) as -> by congruence. split; [|split; [congruence|reflexivity]]. destruct S as [S1 S2 S3 S4 S5 S6 S7].
    split; cbn [detach_track x_tracks cx_channels cx_delta cx_tracks cx_period cx_clocks cx_current cx_rate]; try assumption.
    rewrite part_filter_other by exact K. exact S5.
  - binv E ts E1. assert (c1 = x_tracks c ts) as -> by congruence. split; [|split; [congruence|reflexivity]]. destruct S as [S1 S2 S3 S4 S5 S6 S7].
    split; cbn [x_tracks cx_channels cx_delta cx_tracks cx_period cx_clocks cx_current cx_rate]; try assumption.
    unfold call_track in E1. cbn [fst] in E1. rewrite (on_track_other keep _ _ K _ _ E1). exact S5.
Qed.

(** A call in both contexts. *)
Lemma step_both m n m' n' started ids ops s' i' ops' c c' o c1 l c1' l' : inv started ids c -> legal started ids (o :: ops) -> inv s' i' c' -> legal s' i' (o :: ops') ->
  solo keep c c' -> concerns keep o = true ->
  xstep m n e fuel c o = Ok (c1, l) -> xstep m' n' (only_env keep e) fuel c' o = Ok (c1', l') -> solo keep c1 c1'.
Proof.
  intros I LG I' LG' S K E E'. destruct o; cbn [concerns] in K; cbn [xstep legal] in *; try contradiction.
  - (* XAttachClock *)
    assert (c1 = attach_clock c id period) as -> by congruence. assert (c1' = attach_clock c' id period) as -> by congruence. destruct LG as (_ & NZ & _).
    destruct S as [S1 S2 S3 S4 S5 S6 S7]. split; cbn [attach_clock x_clocks cx_channels cx_delta cx_tracks cx_period cx_clocks cx_current cx_rate]; try assumption.
    destruct S7 as [S7|(S7 & S8 & S9)]; [left; congruence|right]. split; [exact S7|]. rewrite S8. split; [reflexivity|]. rewrite map_app, in_app_iff. cbn. intros [H|[H|[]]]; [exact (S9 H)|congruence].
  - (* XAttachTrack *)
    destruct LG as [LG _]. binv E r E1. destruct r as [c2 r]. assert (c1 = c2) as -> by congruence. unfold attach_track in E1. binv E1 x E2. destruct x as [t1 ret].
    binv E' r' E1'. destruct r' as [c2' r']. assert (c1' = c2') as -> by congruence. unfold attach_track in E1'. binv E1' x E2'. destruct x as [t1' ret'].
    pose proof S as [S1 S2 S3 S4 S5 S6 S7]. unfold numChannels in *. rewrite S1, S4, S6 in E2'.
    assert (t1' = t1) as -> by congruence. assert (ret' = ret) as -> by congruence.
    destruct (attach_good _ _ _ _ _ _ LG E2) as (-> & _). change (0 =? 0) with true in E1, E1'. cbn iota in E1, E1'.
    match type of E1 with Ok (?x, _) = _ => assert (c2 = x) as -> by congruence end. match type of E1' with Ok (?x, _) = _ => assert (c2' = x) as -> by congruence end.
    pose proof (iv_period _ _ _ I) as PP. unfold attach_master, BKTimeIsGreater. cbn [x_tracks cx_period cx_clocks]. rewrite S2. replace (cx_period c >? 0) with true by lia.
    assert (PT : cx_tracks c' ++ [(id, t1)] = part keep (cx_tracks c ++ [(id, t1)])) by (rewrite part_app, part_cons, K, S5; reflexivity).
    apply lone_solo. destruct S7 as [S7|(S7 & S8 & S9)].
    + rewrite S7. destruct (existsb _ (cx_clocks c)); split; cbn [x_tracks x_clocks cx_channels cx_delta cx_tracks cx_period cx_clocks cx_current cx_rate]; assumption || congruence.
    + apply no_master in S9. rewrite S9. rewrite S8. cbn [existsb k_id]. change (0 =? 0) with true. cbn [orb].
      split; cbn [x_tracks x_clocks cx_channels cx_delta cx_tracks cx_period cx_clocks cx_current cx_rate]; assumption || congruence.
  - (* XDetachTrack *)
    assert (c1 = detach_track c id) as -> by congruence. assert (c1' = detach_track c' id) as -> by congruence.
    destruct S as [S1 S2 S3 S4 S5 S6 S7]. split; cbn [detach_track x_tracks cx_channels cx_delta cx_tracks cx_period cx_clocks cx_current cx_rate]; try assumption.
    + rewrite part_filter, S5. reflexivity.
    + destruct S7 as [S7|(S7 & S8)]; [left; exact S7|right]. split; [rewrite S7; reflexivity|exact S8].
  - (* XTrack *)
    binv E ts E1. assert (c1 = x_tracks c ts) as -> by congruence. binv E' ts' E1'. assert (c1' = x_tracks c' ts') as -> by congruence.
    destruct S as [S1 S2 S3 S4 S5 S6 S7]. unfold call_track in E1, E1'. cbn [fst] in E1, E1'. rewrite S5, (on_track_kept keep _ _ K _ _ E1) in E1'.
    assert (ts' = part keep ts) as -> by congruence.
    split; cbn [x_tracks cx_channels cx_delta cx_tracks cx_period cx_clocks cx_current cx_rate]; try assumption; [reflexivity|].
    destruct S7 as [S7|(S7 & S8)]; [left; exact S7|right]. split; [|exact S8].
    assert (L := call_track_kept fuel (cx_tracks c) (id, o) ts). cbn [fst snd] in L. specialize (L (proj1 LG) E1).
    pose proof (kept_fst _ _ L) as F. rewrite S7 in S5. destruct (part keep ts) as [|it r] eqn:X; [reflexivity|]. exfalso.
    assert (map fst (part keep ts) = map fst (part keep (cx_tracks c))) as Y by (unfold part; rewrite !(filter_fst keep), F; reflexivity).
    rewrite X, <- S5 in Y. discriminate Y.
  - (* XPeriod *)
    assert (c1 = fst (set_clock_period c period)) as -> by congruence. assert (c1' = fst (set_clock_period c' period)) as -> by congruence.
    unfold set_clock_period. destruct (BKTimeIsGreater period 0); [|exact S]. cbn [fst].
    destruct S as [S1 S2 S3 S4 S5 S6 S7]. split; cbn [cx_channels cx_delta cx_tracks cx_period cx_clocks cx_current cx_rate]; try assumption; [reflexivity|].
    destruct S7 as [S7|(S7 & S8 & S9)]; [left; rewrite S7; reflexivity|right]. split; [exact S7|]. rewrite S8. cbn [map k_id k_time k_next k_counter].
    change (0 =? 0) with true. cbn iota. split; [reflexivity|]. rewrite map_map. intros H. apply S9. erewrite map_ext; [exact H|]. intros k. cbn. destruct (k_id k =? 0); reflexivity.
  - (* XKernel *)
    assert (c1 = set_pulse_kernel c kernel) as -> by congruence. assert (c1' = set_pulse_kernel c' kernel) as -> by congruence.
    destruct S as [S1 S2 S3 S4 S5 S6 S7]. split; cbn [set_pulse_kernel x_channels cx_channels cx_delta cx_tracks cx_period cx_clocks cx_current cx_rate]; try assumption.
    rewrite !map_length. exact S6.
  - (* XGenerate *)
    binv E r E1. destruct r as [[c2 w] l2]. assert (c1 = c2) as -> by congruence. binv E' r E1'. destruct r as [[c2' w'] l2']. assert (c1' = c2') as -> by congruence.
    unfold BKContextGenerate in *. apply lone_solo.
    apply (generate_part keep e fuel P _ _ _ _ _ _ _ _ _ _ _ _ _ _ _ (inv_able _ _ _ I (proj1 LG)) (inv_able _ _ _ I' (proj1 LG')) (solo_lone _ _ _ S (fst_tracks _ _ _ I' (proj1 LG'))) (u32_range size) E1 E1').
  - (* XReset *)
    binv E c2 E1. assert (c1 = c2) as -> by congruence. binv E' c2' E1'. assert (c1' = c2') as -> by congruence. unfold BKContextReset in *.
    binv E1 ts E2. binv E1' ts' E2'. match type of E1 with Ok ?x = _ => assert (c2 = x) as -> by congruence end. match type of E1' with Ok ?x = _ => assert (c2' = x) as -> by congruence end.
    destruct S as [S1 S2 S3 S4 S5 S6 S7]. pose proof E2' as E3. rewrite S5, (reset_tracks_part keep _ _ _ E2) in E3. assert (ts' = part keep ts) as -> by congruence.
    split; cbn [cx_channels cx_delta cx_tracks cx_period cx_clocks cx_current cx_rate]; try assumption; try reflexivity; [rewrite !map_length; exact S6|].
    destruct S7 as [S7|(S7 & S8 & S9)]; [left; rewrite S7; reflexivity|right].
    split; [rewrite S7 in E2'; cbn in E2'; congruence|]. rewrite S8. cbn [map k_id k_period]. split; [reflexivity|]. rewrite map_map. exact S9.
Qed.

Theorem solo_runs m n m' n' : forall ops started ids s' i' c c' c1 ls c1' ls', inv started ids c -> legal started ids ops -> inv s' i' c' -> legal s' i' (only keep ops) -> solo keep c c' ->
  xruns m n e fuel c ops = Ok (c1, ls) -> xruns m' n' (only_env keep e) fuel c' (only keep ops) = Ok (c1', ls') -> solo keep c1 c1'.
Proof.
  induction ops as [|o ops IH]; intros started ids s' i' c c' c1 ls c1' ls' I LG I' LG' S E E'.
  - cbn in E, E'. assert (c1 = c) as -> by congruence. assert (c1' = c') as -> by congruence. exact S.
  - cbn [xruns] in E. binv E r X. destruct r as [c2 l]. binv E r Y. destruct r as [c3 ls3]. assert (c1 = c3) as -> by congruence.
    destruct (legal_step _ _ _ _ P _ _ _ _ _ _ _ I LG X) as (s2 & i2 & I2 & LG2 & _).
    cbn [only filter] in E', LG'. fold (only keep ops) in E', LG'. destruct (concerns keep o) eqn:K.
    + cbn [xruns] in E'. binv E' r X'. destruct r as [c2' l']. binv E' r Y'. destruct r as [c3' ls3']. assert (c1' = c3') as -> by congruence.
      destruct (legal_step _ _ _ _ (only_env_plain keep e P) _ _ _ _ _ _ _ I' LG' X') as (s2' & i2' & I2' & LG2' & _).
      apply (IH _ _ _ _ _ _ _ _ _ _ I2 LG2 I2' LG2' (step_both _ _ _ _ _ _ _ _ _ _ _ _ _ _ _ _ _ I LG I' LG' S K X X') Y Y').
    + destruct (step_other _ _ _ _ _ _ _ _ _ _ _ _ I LG I' S K X) as (S2 & _). apply (IH _ _ _ _ _ _ _ _ _ _ I2 LG2 I' LG' S2 Y E').
Qed.
End Run.

(** Calls which do not generate keep what the channels add up to. *)
Lemma clear_adds b b1 b2 : adds b b1 b2 -> adds (BKBufferClear b) (BKBufferClear b1) (BKBufferClear b2).
Proof.
  assert (OK : forall x, buffer_ok x -> buffer_ok (BKBufferClear x)).
  { intros x (_ & _ & _ & K & _). unfold buffer_ok, BKBufferClear. cbn [b_frames b_time b_capacity b_pulse b_accum].
    split; [apply repeat_length|]. split; [lia|]. split; [lia|]. split; [exact K|]. split; [unfold is_s32; lia|].
    intros v V. apply repeat_spec in V. subst v. unfold is_s32. lia. }
  intros [A1 A2 A3 A4 A5 A6 A7 A8 A9 A10]. split; cbn [BKBufferClear b_time b_accum b_pulse]; auto.
  - intros i _. unfold cell, BKBufferClear. cbn [b_frames]. rewrite !nth_repeat. reflexivity.
  - unfold near. lia.
Qed.
Lemma kernel_adds k b b1 b2 : kernel_ok k -> adds b b1 b2 ->
  adds (mk_buffer (b_time b) (b_capacity b) (b_accum b) (b_frames b) k) (mk_buffer (b_time b1) (b_capacity b1) (b_accum b1) (b_frames b1) k) (mk_buffer (b_time b2) (b_capacity b2) (b_accum b2) (b_frames b2) k).
Proof.
  intros K. assert (OK : forall x, buffer_ok x -> buffer_ok (mk_buffer (b_time x) (b_capacity x) (b_accum x) (b_frames x) k)).
  { intros x (B1 & B2 & B3 & B4 & B5 & B6). unfold buffer_ok. cbn [b_frames b_time b_capacity b_pulse b_accum]. auto 8. }
  intros [A1 A2 A3 A4 A5 A6 A7 A8 A9 A10]. split; cbn [b_time b_accum b_pulse b_frames]; auto.
Qed.

Definition touches (o : xop) : bool := match o with XAttachTrack _ _ | XDetachTrack _ | XTrack _ _ => true | _ => false end.

Lemma touch_channels m n e fuel c o c1 l : touches o = true -> xstep m n e fuel c o = Ok (c1, l) -> cx_channels c1 = cx_channels c /\ l = [].
Proof.
  destruct o; cbn [touches xstep]; try discriminate; intros _ E.
  - binv E r E1. destruct r as [c2 r]. assert (c1 = c2) as -> by congruence. split; [|congruence]. unfold attach_track in E1. binv E1 x E2. destruct x as [t1 ret].
    destruct (ret =? 0); match type of E1 with Ok (?x, _) = _ => assert (c2 = x) as -> by congruence end; [|reflexivity].
    unfold attach_master. cbn [x_tracks cx_period cx_clocks]. destruct (BKTimeIsGreater _ _); [|reflexivity]. destruct (existsb _ _); reflexivity.
  - assert (c1 = detach_track c id) as -> by congruence. split; [reflexivity|congruence].
  - binv E ts E1. assert (c1 = x_tracks c ts) as -> by congruence. split; [reflexivity|congruence].
Qed.

Section Sum.
Variable keep : Z -> bool.
Let drop := fun id => negb (keep id).
Variable e : env.
Variable fuel : nat.
Hypothesis P : env_plain e.

Lemma all_adds m n m1 n1 m2 n2 started ids ops s1 i1 ops1 s2 i2 ops2 c c1 c2 o c' l c1' l1 c2' l2 : inv started ids c -> legal started ids (o :: ops) ->
  inv s1 i1 c1 -> legal s1 i1 (o :: ops1) -> inv s2 i2 c2 -> legal s2 i2 (o :: ops2) -> solo keep c c1 -> solo drop c c2 -> touches o = false ->
  Forall3 adds (cx_channels c) (cx_channels c1) (cx_channels c2) ->
  xstep m n e fuel c o = Ok (c', l) -> xstep m1 n1 (only_env keep e) fuel c1 o = Ok (c1', l1) -> xstep m2 n2 (only_env drop e) fuel c2 o = Ok (c2', l2) ->
  Forall3 adds (cx_channels c') (cx_channels c1') (cx_channels c2') /\ Forall3 (Forall3 sums) l l1 l2.
Proof.
  intros I LG I1 LG1 I2 LG2 S1 S2 T AD E E1 E2. destruct o; cbn [touches] in T; try discriminate T; cbn [xstep legal] in *; try contradiction.
  - assert (c' = attach_clock c id period) as -> by congruence. assert (c1' = attach_clock c1 id period) as -> by congruence. assert (c2' = attach_clock c2 id period) as -> by congruence.
    split; [exact AD|]. replace l with (@nil (list Z)) by congruence. replace l1 with (@nil (list Z)) by congruence. replace l2 with (@nil (list Z)) by congruence. constructor.
  - assert (c' = fst (set_clock_period c period)) as -> by congruence. assert (c1' = fst (set_clock_period c1 period)) as -> by congruence. assert (c2' = fst (set_clock_period c2 period)) as -> by congruence.
    split; [unfold set_clock_period; destruct (BKTimeIsGreater period 0); exact AD|]. replace l with (@nil (list Z)) by congruence. replace l1 with (@nil (list Z)) by congruence. replace l2 with (@nil (list Z)) by congruence. constructor.
  - assert (c' = set_pulse_kernel c kernel) as -> by congruence. assert (c1' = set_pulse_kernel c1 kernel) as -> by congruence. assert (c2' = set_pulse_kernel c2 kernel) as -> by congruence.
    split; [|replace l with (@nil (list Z)) by congruence; replace l1 with (@nil (list Z)) by congruence; replace l2 with (@nil (list Z)) by congruence; constructor].
    unfold set_pulse_kernel. cbn [x_channels cx_channels]. apply Forall3_map. eapply Forall3_impl; [|exact AD]. intros b b1 b2. cbv beta. apply kernel_adds.
    destruct kernel; [apply LG|apply kernel_ok_harm].
  - binv E r X. destruct r as [[d w] ld]. assert (c' = d) as -> by congruence. assert (l = ld) as -> by congruence.
    binv E1 r X1. destruct r as [[d1 w1] ld1]. assert (c1' = d1) as -> by congruence. assert (l1 = ld1) as -> by congruence.
    binv E2 r X2. destruct r as [[d2 w2] ld2]. assert (c2' = d2) as -> by congruence. assert (l2 = ld2) as -> by congruence. unfold BKContextGenerate in *.
    apply (generate_adds keep e fuel P _ _ _ _ _ _ _ _ _ _ _ _ _ _ _ _ _ _ _ _ _ _ (inv_able _ _ _ I (proj1 LG)) (inv_able _ _ _ I1 (proj1 LG1)) (inv_able _ _ _ I2 (proj1 LG2))
      (solo_lone _ _ _ S1 (fst_tracks _ _ _ I1 (proj1 LG1))) (solo_lone _ _ _ S2 (fst_tracks _ _ _ I2 (proj1 LG2))) AD (u32_range size) X X1 X2).
  - binv E r X. assert (c' = r) as -> by congruence. binv E1 r1 X1. assert (c1' = r1) as -> by congruence. binv E2 r2 X2. assert (c2' = r2) as -> by congruence. unfold BKContextReset in *.
    binv X t Y. binv X1 t1 Y1. binv X2 t2 Y2. match type of X with Ok ?x = _ => assert (r = x) as -> by congruence end. match type of X1 with Ok ?x = _ => assert (r1 = x) as -> by congruence end. match type of X2 with Ok ?x = _ => assert (r2 = x) as -> by congruence end.
    split; [|replace l with (@nil (list Z)) by congruence; replace l1 with (@nil (list Z)) by congruence; replace l2 with (@nil (list Z)) by congruence; constructor].
    cbn [cx_channels]. apply Forall3_map. eapply Forall3_impl; [|exact AD]. intros b b1 b2. apply clear_adds.
Qed.

Theorem sum_runs m n m1 n1 m2 n2 : forall ops started ids s1 i1 s2 i2 c c1 c2 c' ls c1' ls1 c2' ls2, inv started ids c -> legal started ids ops ->
  inv s1 i1 c1 -> legal s1 i1 (only keep ops) -> inv s2 i2 c2 -> legal s2 i2 (only drop ops) -> solo keep c c1 -> solo drop c c2 ->
  Forall3 adds (cx_channels c) (cx_channels c1) (cx_channels c2) ->
  xruns m n e fuel c ops = Ok (c', ls) -> xruns m1 n1 (only_env keep e) fuel c1 (only keep ops) = Ok (c1', ls1) -> xruns m2 n2 (only_env drop e) fuel c2 (only drop ops) = Ok (c2', ls2) ->
  Forall3 (Forall3 sums) (audio ls) (audio ls1) (audio ls2).
Proof.
  induction ops as [|o ops IH]; intros started ids s1 i1 s2 i2 c c1 c2 c' ls c1' ls1 c2' ls2 I LG I1 LG1 I2 LG2 S1 S2 AD E E1 E2.
  - cbn in E, E1, E2. assert (ls = []) as -> by congruence. assert (ls1 = []) as -> by congruence. assert (ls2 = []) as -> by congruence. constructor.
  - cbn [xruns] in E. binv E r X. destruct r as [d l]. binv E r Y. destruct r as [d' ls']. assert (ls = l :: ls') as -> by congruence.
    destruct (legal_step _ _ _ _ P _ _ _ _ _ _ _ I LG X) as (st & is & J & LJ & _).
    assert (CD : touches o = false -> concerns keep o = true /\ concerns drop o = true) by (destruct o; cbn; intros T; try discriminate T; auto).
    assert (CT : touches o = true -> concerns drop o = negb (concerns keep o)) by (destruct o; cbn; intros T; try discriminate T; reflexivity).
    cbn [only filter] in E1, LG1, E2, LG2. fold (only keep ops) in E1, LG1. fold (only drop ops) in E2, LG2.
    destruct (touches o) eqn:T.
    + destruct (touch_channels _ _ _ _ _ _ _ _ T X) as (CH & ->). rewrite (CT eq_refl) in E2, LG2. change (audio ([] :: ls')) with (audio ls'). rewrite <- CH in AD. destruct (concerns keep o) eqn:K; cbn [negb] in E2, LG2.
      * cbn [xruns] in E1. binv E1 r X1. destruct r as [d1 l1]. binv E1 r Y1. destruct r as [d1' ls1']. assert (ls1 = l1 :: ls1') as -> by congruence.
        destruct (legal_step _ _ _ _ (only_env_plain keep e P) _ _ _ _ _ _ _ I1 LG1 X1) as (st1 & is1 & J1 & LJ1 & _).
        destruct (touch_channels _ _ _ _ _ _ _ _ T X1) as (CH1 & ->). change (audio ([] :: ls1')) with (audio ls1'). rewrite <- CH1 in AD.
        pose proof (step_both keep e fuel P _ _ _ _ _ _ _ _ _ _ _ _ _ _ _ _ _ I LG I1 LG1 S1 K X X1) as S1'.
        destruct (step_other drop e fuel _ _ _ _ _ _ _ _ _ _ _ _ I LG I2 S2 (CT eq_refl) X) as (S2' & _).
        apply (IH _ _ _ _ _ _ _ _ _ _ _ _ _ _ _ J LJ J1 LJ1 I2 LG2 S1' S2' AD Y Y1 E2).
      * cbn [xruns] in E2. binv E2 r X2. destruct r as [d2 l2]. binv E2 r Y2. destruct r as [d2' ls2']. assert (ls2 = l2 :: ls2') as -> by congruence.
        destruct (legal_step _ _ _ _ (only_env_plain drop e P) _ _ _ _ _ _ _ I2 LG2 X2) as (st2 & is2 & J2 & LJ2 & _).
        destruct (touch_channels _ _ _ _ _ _ _ _ T X2) as (CH2 & ->). change (audio ([] :: ls2')) with (audio ls2'). rewrite <- CH2 in AD.
        pose proof (step_both drop e fuel P _ _ _ _ _ _ _ _ _ _ _ _ _ _ _ _ _ I LG I2 LG2 S2 (CT eq_refl) X X2) as S2'.
        destruct (step_other keep e fuel _ _ _ _ _ _ _ _ _ _ _ _ I LG I1 S1 K X) as (S1' & _).
        apply (IH _ _ _ _ _ _ _ _ _ _ _ _ _ _ _ J LJ I1 LG1 J2 LJ2 S1' S2' AD Y E1 Y2).
    + destruct (CD eq_refl) as (K1 & K2). rewrite K1 in E1, LG1. rewrite K2 in E2, LG2.
      cbn [xruns] in E1. binv E1 r X1. destruct r as [d1 l1]. binv E1 r Y1. destruct r as [d1' ls1']. assert (ls1 = l1 :: ls1') as -> by congruence.
      destruct (legal_step _ _ _ _ (only_env_plain keep e P) _ _ _ _ _ _ _ I1 LG1 X1) as (st1 & is1 & J1 & LJ1 & _).
      cbn [xruns] in E2. binv E2 r X2. destruct r as [d2 l2]. binv E2 r Y2. destruct r as [d2' ls2']. assert (ls2 = l2 :: ls2') as -> by congruence.
      destruct (legal_step _ _ _ _ (only_env_plain drop e P) _ _ _ _ _ _ _ I2 LG2 X2) as (st2 & is2 & J2 & LJ2 & _).
      pose proof (step_both keep e fuel P _ _ _ _ _ _ _ _ _ _ _ _ _ _ _ _ _ I LG I1 LG1 S1 K1 X X1) as S1'.
      pose proof (step_both drop e fuel P _ _ _ _ _ _ _ _ _ _ _ _ _ _ _ _ _ I LG I2 LG2 S2 K2 X X2) as S2'.
      destruct (all_adds _ _ _ _ _ _ _ _ _ _ _ _ _ _ _ _ _ _ _ _ _ _ _ _ _ I LG I1 LG1 I2 LG2 S1 S2 T AD X X1 X2) as (AD' & SU).
      cbn [audio fold_right]. apply join_sums; [exact SU|]. apply (IH _ _ _ _ _ _ _ _ _ _ _ _ _ _ _ J LJ J1 LJ1 J2 LJ2 S1' S2' AD' Y Y1 Y2).
Qed.
End Sum.

Lemma init_solo keep nc rate period : solo keep (BKContextInit nc rate period) (BKContextInit nc rate period).
Proof. split; try reflexivity. left. reflexivity. Qed.
Lemma adds_init : adds BKBufferInit BKBufferInit BKBufferInit.
Proof.
  split; try exact init_ok; try reflexivity.
  - intros i _. unfold cell, BKBufferInit. cbn [b_frames]. rewrite nth_repeat. reflexivity.
  - unfold near. cbn. lia.
Qed.
Lemma init_adds nc rate period : let c := BKContextInit nc rate period in Forall3 adds (cx_channels c) (cx_channels c) (cx_channels c).
Proof.
  cbv zeta. cbn [BKContextInit cx_channels]. induction (Z.to_nat (BKClamp (u32 nc) 1 BK_MAX_CHANNELS)) as [|k IH]; [constructor|].
  change (repeat BKBufferInit (S k)) with (BKBufferInit :: repeat BKBufferInit k). constructor; [exact adds_init|exact IH].
Qed.
