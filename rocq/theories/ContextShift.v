(** Tracks and clocks of a context do not notice by how much the times of the units are shifted. *)
From Verif Require Import CInt CIntFacts TimeModel Kernels BufferModel UnitModel TrackModel TrackTime UnitShift ContextModel ContextSame.
Ltac Zify.zify_post_hook ::= idtac.

Definition sh (d : Z) (t : track) : track := tm (un_time (tr_unit t) + d) t.
Definition shs (d : Z) (ts : list (Z * track)) : list (Z * track) := map (fun it => (fst it, sh d (snd it))) ts.

(** Scripts only set attributes, pointers and data of tracks; times are 64-bit numbers. *)
Definition env_plain (e : env) : Prop := forall id n t,
  Forall (fun c => plain_op (snd c) = true) (e_calls e id n t) /\ e_next e id n t <= BK_TIME_MAX.

(** ** Calls *)

Lemma tstep_sh d fuel t o : plain_op o = true -> tstep fuel (sh d t) o = rmap (fst_map (sh d)) (tstep fuel t o).
Proof.
  intros P. unfold sh at 1. rewrite tstep_tm by exact P. destruct (tstep fuel t o) as [[t' l]|] eqn:E; [|reflexivity].
  unfold rmap, fst_map. cbn [fst snd]. unfold sh. rewrite (tstep_time _ _ _ _ _ P E). reflexivity.
Qed.

Lemma tick_sh d fuel t : BKTrackTick fuel (sh d t) = rmap (sh d) (BKTrackTick fuel t).
Proof.
  unfold sh at 1. rewrite (tick_tm _ fuel _ t) by reflexivity. destruct (BKTrackTick fuel t) as [t'|] eqn:E; [|reflexivity].
  unfold rmap, sh. rewrite (tick_time _ _ _ E). reflexivity.
Qed.

Lemma on_track_sh d (f : track -> res track) id : (forall t, f (sh d t) = rmap (sh d) (f t)) ->
  forall ts, on_track f (shs d ts) id = rmap (shs d) (on_track f ts id).
Proof.
  intros H. induction ts as [|[i t] ts IH]; [reflexivity|]. cbn [shs map on_track fst snd]. destruct (i =? id).
  - rewrite H. destruct (f t); reflexivity.
  - change (map _ ts) with (shs d ts). rewrite IH. destruct (on_track f ts id); reflexivity.
Qed.

Lemma call_track_sh d fuel ts c : plain_op (snd c) = true -> call_track fuel (shs d ts) c = rmap (shs d) (call_track fuel ts c).
Proof.
  intros P. unfold call_track. apply on_track_sh. intros t. rewrite tstep_sh by exact P.
  destruct (tstep fuel t (snd c)) as [[t' l]|]; reflexivity.
Qed.

Lemma call_tracks_sh d fuel l : Forall (fun c => plain_op (snd c) = true) l -> forall ts,
  call_tracks fuel (shs d ts) l = rmap (shs d) (call_tracks fuel ts l).
Proof.
  induction 1 as [|c l P H IH]; intros ts; cbn [call_tracks]; [reflexivity|]. rewrite call_track_sh by exact P.
  destruct (call_track fuel ts c) as [ts'|]; cbn [rmap bind]; [apply IH|reflexivity].
Qed.

Lemma tick_tracks_sh d fuel : forall ts, tick_tracks fuel (shs d ts) = rmap (shs d) (tick_tracks fuel ts).
Proof.
  induction ts as [|[i t] ts IH]; [reflexivity|]. cbn [shs map tick_tracks fst snd]. change (map _ ts) with (shs d ts).
  rewrite tick_sh, IH. destruct (BKTrackTick fuel t); [|reflexivity]. cbn [rmap bind]. destruct (tick_tracks fuel ts); reflexivity.
Qed.

Lemma clock_tick_sh d e fuel ts k : env_plain e ->
  BKClockTick e fuel (shs d ts) k = rmap (fun '(ts, k) => (shs d ts, k)) (BKClockTick e fuel ts k).
Proof.
  intros P. unfold BKClockTick. destruct (BKTimeIsEqual _ _); [|reflexivity].
  rewrite call_tracks_sh by apply (P (k_id k) (k_counter k) (k_time k)). destruct (call_tracks fuel ts _) as [ts1|]; [|reflexivity]. cbn [rmap bind].
  replace (if k_id k =? 0 then tick_tracks fuel (shs d ts1) else Ok (shs d ts1))
    with (rmap (shs d) (if k_id k =? 0 then tick_tracks fuel ts1 else Ok ts1))
    by (destruct (k_id k =? 0); [rewrite tick_tracks_sh|]; reflexivity).
  destruct (if k_id k =? 0 then tick_tracks fuel ts1 else Ok ts1) as [ts2|]; [|reflexivity]. cbn [rmap bind].
  match goal with |- context [bind ?a (fun '(_, _) => Ok (ts2, _))] => destruct a as [[per nx]|] end; reflexivity.
Qed.

Lemma tick_clocks_sh d e fuel : env_plain e -> forall ks ts nt,
  tick_clocks e fuel (shs d ts) ks nt = rmap (fun '(ts, ks, nt) => (shs d ts, ks, nt)) (tick_clocks e fuel ts ks nt).
Proof.
  intros P. induction ks as [|k ks IH]; intros ts nt; [reflexivity|]. cbn [tick_clocks]. rewrite clock_tick_sh by exact P.
  destruct (BKClockTick e fuel ts k) as [[ts1 k1]|]; [|reflexivity]. cbn [rmap bind]. rewrite IH.
  destruct (tick_clocks e fuel ts1 ks _) as [[[ts2 ks2] nt2]|]; reflexivity.
Qed.

(** The context with all units [d] later, another [deltaTime] and other channels. *)
Definition late (d dl : Z) (chs : list buffer) (c : context) : context :=
  mk_context (cx_rate c) (cx_period c) (cx_current c) dl (cx_clocks c) (shs d (cx_tracks c)) chs.

Lemma advance_late d dl chs e fuel c : env_plain e ->
  BKClocksAdvance e fuel (late d dl chs c) = rmap (fun '(c', q) => (late d dl chs c', q)) (BKClocksAdvance e fuel c).
Proof.
  intros P. unfold BKClocksAdvance. cbn [late cx_tracks cx_clocks cx_current]. rewrite tick_clocks_sh by exact P.
  destruct (tick_clocks e fuel (cx_tracks c) (cx_clocks c) BK_TIME_MAX) as [[[ts ks] nt]|]; [|reflexivity]. cbn [rmap bind].
  destruct (BKTimeSub nt (cx_current c)) as [dt|]; [|reflexivity]. cbn [bind]. cbv zeta.
  destruct (advance_clocks ks _) as [ks'|]; [|reflexivity]. cbn [bind].
  destruct (BKTimeAddFUInt20 (cx_current c) _) as [t|]; reflexivity.
Qed.

(** ** What stays *)

Definition keeps (a b : Z * track) : Prop :=
  fst b = fst a /\ un_time (tr_unit (snd b)) = un_time (tr_unit (snd a)) /\ (Pt (snd a) -> Pt (snd b)).
Definition kept (ts ts' : list (Z * track)) : Prop := Forall2 keeps ts ts'.

Lemma keeps_refl a : keeps a a.
Proof. split; [reflexivity|]. split; [reflexivity|]. auto. Qed.
Lemma kept_refl ts : kept ts ts.
Proof. induction ts; constructor; [apply keeps_refl|assumption]. Qed.
Lemma kept_trans a b c : kept a b -> kept b c -> kept a c.
Proof.
  intros H. revert c. induction H as [|x y a b K H IH]; intros c H2; inversion H2; subst; constructor.
  - destruct K as (K1 & K2 & K3). destruct H3 as (L1 & L2 & L3). split; [congruence|]. split; [congruence|]. auto.
  - apply IH. assumption.
Qed.

Lemma on_track_kept f id : (forall t t', f t = Ok t' -> un_time (tr_unit t') = un_time (tr_unit t) /\ (Pt t -> Pt t')) ->
  forall ts ts', on_track f ts id = Ok ts' -> kept ts ts'.
Proof.
  intros H. induction ts as [|[i t] ts IH]; intros ts' E; cbn [on_track] in E.
  - inversion E. constructor.
  - destruct (i =? id).
    + binv E t1 E1. assert (ts' = (i, t1) :: ts) as -> by congruence. destruct (H _ _ E1).
      constructor; [split; [reflexivity|split; assumption]|apply kept_refl].
    + binv E ts1 E1. assert (ts' = (i, t) :: ts1) as -> by congruence. constructor; [apply keeps_refl|]. apply IH. exact E1.
Qed.

Lemma call_track_kept fuel ts c ts' : plain_op (snd c) = true -> call_track fuel ts c = Ok ts' -> kept ts ts'.
Proof.
  intros P E. unfold call_track in E. refine (on_track_kept _ _ _ _ _ E). intros t t' F. cbv beta in F. binv F r F1. destruct r as [t1 l].
  assert (t' = t1) as -> by congruence. split; [apply (tstep_time _ _ _ _ _ P F1)|]. intros Q. apply (tstep_keep _ _ _ _ _ P Q F1).
Qed.

Lemma call_tracks_kept fuel l : Forall (fun c => plain_op (snd c) = true) l -> forall ts ts', call_tracks fuel ts l = Ok ts' -> kept ts ts'.
Proof.
  induction 1 as [|c l P H IH]; intros ts ts' E; cbn [call_tracks] in E.
  - assert (ts' = ts) as -> by congruence. apply kept_refl.
  - binv E ts1 E1. eapply kept_trans; [apply (call_track_kept _ _ _ _ P E1)|apply IH; exact E].
Qed.

Lemma tick_tracks_kept fuel : forall ts ts', tick_tracks fuel ts = Ok ts' -> kept ts ts'.
Proof.
  induction ts as [|[i t] ts IH]; intros ts' E; cbn [tick_tracks] in E; [inversion E; constructor|].
  binv E t1 E1. binv E ts1 E2. assert (ts' = (i, t1) :: ts1) as -> by congruence. constructor; [|apply IH; exact E2].
  split; [reflexivity|]. split; [apply (tick_time _ _ _ E1)|]. cbn [snd]. intros P. pose proof (tick_keep fuel t P) as K. rewrite E1 in K. exact K.
Qed.

(** ** Clocks *)

Definition clock_fine (cur : Z) (k : vclock) : Prop := k_time k = cur /\ cur <= k_next k <= BK_TIME_MAX /\ 0 < k_period k.

Lemma clock_tick_fine e fuel ts k ts' k' cur : env_plain e -> clock_fine cur k -> BKClockTick e fuel ts k = Ok (ts', k') ->
  kept ts ts' /\ k_time k' = cur /\ cur < k_next k' <= BK_TIME_MAX /\ 0 < k_period k' /\ k_id k' = k_id k.
Proof.
  intros P (K1 & K2 & K3) E. unfold BKClockTick, BKTimeIsEqual in E. destruct (Z.eqb_spec (k_time k) (k_next k)) as [Q|Q].
  - binv E ts1 E1. binv E ts2 E2. cbv zeta in E. binv E r E3. destruct r as [per nx].
    assert (ts' = ts2) as -> by congruence. assert (k' = mk_vclock (k_id k) per (k_time k) nx (u32 (k_counter k + 1))) as -> by congruence.
    cbn [k_time k_next k_period k_id].
    split.
    { eapply kept_trans; [apply (call_tracks_kept _ _ (proj1 (P _ _ _)) _ _ E1)|]. destruct (k_id k =? 0).
      - apply (tick_tracks_kept _ _ _ E2).
      - assert (ts2 = ts1) as -> by congruence. apply kept_refl. }
    split; [exact K1|]. unfold BKTimeIsGreater, BKTimeSub, BKTimeAdd in E3.
    destruct (e_next e (k_id k) (k_counter k) (k_time k) >? k_time k) eqn:G.
    + binv E3 p E4. unfold chk64 in E4. destruct (in_s64 _); [|discriminate]. rewrite Z.gtb_ltb, Z.ltb_lt in G.
      pose proof (proj2 (P (k_id k) (k_counter k) (k_time k))). inversion E3; inversion E4; subst. lia.
    + binv E3 p E4. unfold chk64, in_s64 in E4. destruct (_ && _) eqn:B; [|discriminate]. unfold BK_TIME_MAX in *.
      apply andb_prop in B. destruct B as [B1 B2]. rewrite Z.leb_le in B1, B2. inversion E3; inversion E4; subst. lia.
  - assert (ts' = ts) as -> by congruence. assert (k' = k) as -> by congruence. split; [apply kept_refl|]. lia.
Qed.

Lemma tick_clocks_fine e fuel cur : env_plain e -> forall ks ts nt ts' ks' nt', Forall (clock_fine cur) ks -> cur < nt ->
  tick_clocks e fuel ts ks nt = Ok (ts', ks', nt') ->
  kept ts ts' /\ cur < nt' <= nt /\ Forall (fun k => k_time k = cur /\ nt' <= k_next k <= BK_TIME_MAX /\ 0 < k_period k) ks' /\ map k_id ks' = map k_id ks.
Proof.
  intros P. induction ks as [|k ks IH]; intros ts nt ts' ks' nt' H L E; cbn [tick_clocks] in E.
  - inversion E; subst. split; [apply kept_refl|]. split; [lia|]. split; [constructor|reflexivity].
  - inversion H as [|x y Hk H']; subst. binv E r E1. destruct r as [ts1 k1]. cbv zeta in E. binv E r E2. destruct r as [[ts2 ks2] nt2].
    inversion E; subst. clear E. destruct (clock_tick_fine _ _ _ _ _ _ _ P Hk E1) as (I1 & I2 & I3 & I4 & I5).
    apply IH in E2; [|exact H'|unfold BKTimeIsLess; destruct (_ <? _); lia].
    destruct E2 as (J1 & J2 & J3 & J4).
    assert (nt' <= k_next k1 /\ nt' <= nt) by (unfold BKTimeIsLess in J2; destruct (k_next k1 <? nt) eqn:Q; lia).
    split; [eapply kept_trans; eassumption|]. split; [lia|]. split; [constructor; [lia|exact J3]|]. cbn. congruence.
Qed.

Lemma advance_clocks_fine cur per nt : forall ks ks', Forall (fun k => k_time k = cur /\ nt <= k_next k <= BK_TIME_MAX /\ 0 < k_period k) ks ->
  cur + per <= nt -> advance_clocks ks per = Ok ks' -> Forall (clock_fine (cur + per)) ks' /\ map k_id ks' = map k_id ks.
Proof.
  induction ks as [|k ks IH]; intros ks' H L E; cbn [advance_clocks] in E.
  - inversion E; subst. split; [constructor|reflexivity].
  - inversion H as [|x y Hk H']; subst. binv E t E1. binv E ks1 E2. inversion E; subst. destruct (IH _ H' L E2) as [I1 I2].
    unfold BKTimeAddFUInt20, chk64 in E1. destruct (in_s64 _); [|discriminate]. inversion E1; subst.
    split; [|cbn; congruence]. constructor; [|exact I1]. destruct Hk as (K1 & K2 & K3). unfold clock_fine. cbn. lia.
Qed.

(** The clocks move on by at least 1 and by a bounded amount. *)
Lemma advance_fine e fuel c c' q : env_plain e -> cx_clocks c <> [] -> Forall (clock_fine (cx_current c)) (cx_clocks c) ->
  BKClocksAdvance e fuel c = Ok (c', q) ->
  1 <= q <= 715827882 /\ cx_current c' = cx_current c + q /\ cx_clocks c' <> [] /\ Forall (clock_fine (cx_current c')) (cx_clocks c') /\
  kept (cx_tracks c) (cx_tracks c') /\ cx_delta c' = cx_delta c /\ cx_channels c' = cx_channels c /\ map k_id (cx_clocks c') = map k_id (cx_clocks c) /\
  cx_rate c' = cx_rate c /\ cx_period c' = cx_period c.
Proof.
  intros P NE H E. unfold BKClocksAdvance in E. binv E r E1. destruct r as [[ts ks] nt].
  assert (M : cx_current c < BK_TIME_MAX).
  { destruct (cx_clocks c) as [|k0 ks0]; [congruence|]. cbn [tick_clocks] in E1. binv E1 r E0. destruct r as [ts1 k1].
    inversion H; subst. destruct (clock_tick_fine _ _ _ _ _ _ _ P H2 E0). lia. }
  binv E dt E2. cbv zeta in E. binv E ks' E3. binv E t E4.
  set (per := if BKTimeIsLessFUInt20 dt (BK_INT_MAX / 3) then BKTimeGetFUInt20 dt else BK_INT_MAX / 3) in *.
  assert (c' = x_current (x_clocks (x_tracks c ts) ks') t) as -> by congruence. assert (q = per) as -> by congruence. clear E.
  destruct (tick_clocks_fine _ _ _ P _ _ _ _ _ _ H M E1) as (I1 & I2 & I3 & I4).
  unfold BKTimeSub, chk64 in E2. destruct (in_s64 _); [|discriminate]. assert (dt = nt - cx_current c) as -> by congruence.
  assert (PR : 1 <= per <= 715827882 /\ cx_current c + per <= nt).
  { unfold per, BKTimeIsLessFUInt20, BKTimeGetFUInt20, BK_INT_MAX. change (2147483647 / 3) with 715827882.
    destruct (_ <? _) eqn:Q; [rewrite u32_small by lia|]; lia. }
  destruct (advance_clocks_fine _ _ _ _ _ I3 (proj2 PR) E3) as [A1 A2].
  unfold BKTimeAddFUInt20, chk64 in E4. destruct (in_s64 _); [|discriminate]. assert (t = cx_current c + per) as -> by congruence.
  split; [tauto|]. split; [reflexivity|]. split.
  { intros Z. apply (f_equal (@length _)) in A2. apply (f_equal (@length _)) in I4. rewrite !map_length in *. cbn in Z.
    rewrite Z in A2. destruct (cx_clocks c); [congruence|]. cbn in *. congruence. }
  split; [exact A1|]. split; [exact I1|]. split; [reflexivity|]. split; [reflexivity|]. split; [cbn; congruence|]. split; reflexivity.
Qed.
