(** Quiet tracks in a context: clocks, calls, ticks and runs do not fail. *)
From Verif Require Import CInt CIntFacts TimeModel Kernels BufferModel BufferSpec BufferProofs BufferProofs2 DataModel UnitModel UnitSpec UnitProofs UnitProofs2 UnitProofs3 UnitProofs4
  UnitProofs5 UnitInv2 UnitCount TrackModel TrackSpec TrackProofs TrackProofs2 TrackInv TrackProofs6 TrackTicks TrackTime UnitShift MixSpec MixProofs ContextModel ContextSpec ContextSame ContextShift ContextRun ContextChunk ContextGen
  ContextGen2 SafeSpec TrackQuiet UnitQuiet SafeBuffer.
Ltac Zify.zify_post_hook ::= idtac.

(** ** Ledgers of all channels *)

Fixpoint ext (s now : Z) (Ps : list ledger) (ls : list (list (Z * Z))) : list ledger :=
  match Ps, ls with
  | P :: Ps, l :: ls => (P ++ lab s now l) :: ext s now Ps ls
  | _, _ => []
  end.

Lemma ext_length s now : forall Ps ls, length ls = length Ps -> length (ext s now Ps ls) = length Ps.
Proof. induction Ps as [|P Ps IH]; intros [|l ls] L; cbn in *; try congruence. rewrite IH by congruence. reflexivity. Qed.

Lemma ext_nth s now : forall Ps ls k, length ls = length Ps -> nth k (ext s now Ps ls) [] = nth k Ps [] ++ lab s now (nth k ls []).
Proof.
  induction Ps as [|P Ps IH]; intros [|l ls] k L; cbn in L; try congruence; [destruct k; reflexivity|]. destruct k as [|k]; cbn [ext nth]; [reflexivity|]. apply IH. congruence.
Qed.

Definition hists (g : list source) (Ps : list ledger) : Prop := forall k, hist g k (nth k Ps []).

(** ** Tracks as sources *)

Section Tracks.
Variable fuel : nat.
Variable nc : Z.
Variable vol : Z -> Z.

(** [now] is the absolute time up to which the track has run. *)
Record voice (g : list source) (Ps : list ledger) (now : Z) (s : Z) (it : Z * track) : Prop := {
  vo_num : In s (nums g);
  vo_cap : cap g s = vol (fst it);
  vo_ok : track_ok fuel (snd it);
  vo_quiet : quiet_track (vol (fst it)) (snd it);
  vo_ctx : un_ctx (tr_unit (snd it)) = Some nc;
  vo_level : forall k, sum_values (from s (nth k Ps [])) = lastp (tr_unit (snd it)) k - base g s k \/ (Z.to_nat nc <= k)%nat;
  vo_time : forall k u p, In (u, p) (from s (nth k Ps [])) -> u <= now }.

Lemma voice_vol g Ps now s it : Forall source_ok g -> voice g Ps now s it -> 0 <= vol (fst it).
Proof. intros F V. pose proof (source_In g s F (vo_num _ _ _ _ _ V) 0%nat) as H. rewrite <- (vo_cap _ _ _ _ _ V). unfold cap. lia. Qed.

(** A track which was called or ticked. *)
Lemma voice_next g Ps now s i t t' : voice g Ps now s (i, t) -> track_ok fuel t' -> quiet_track (vol i) t' -> stays t t' -> voice g Ps now s (i, t').
Proof.
  intros [V1 V2 V3 V4 V5 V6 V7] O Q [S1 S2]. cbn [fst snd] in *. split; cbn [fst snd]; try assumption.
  - congruence.
  - intros k. unfold lastp in *. rewrite S2. apply V6.
Qed.

(** The ledger got pulses of another source. *)
Lemma voice_other g Ps now s it s' t0 ls : voice g Ps now s it -> s' <> s -> length ls = length Ps -> voice g (ext s' t0 Ps ls) now s it.
Proof.
  intros [V1 V2 V3 V4 V5 V6 V7] N L. split; try assumption.
  - intros k. rewrite ext_nth, from_app, from_lab_other, app_nil_r by assumption. apply V6.
  - intros k u p. rewrite ext_nth, from_app, from_lab_other, app_nil_r by assumption. apply V7.
Qed.

Lemma voice_later g Ps now s it now' : voice g Ps now s it -> now <= now' -> voice g Ps now' s it.
Proof. intros [V1 V2 V3 V4 V5 V6 V7] L. split; try assumption. intros k u p X. specialize (V7 k u p X). lia. Qed.

(** ** Calls and ticks *)

Lemma call_plain V o : calm_call fuel V o -> plain_op o = true.
Proof. destruct o; cbn; tauto. Qed.

Lemma call_top_ok V t o : calm_call fuel V o -> quiet_track V t -> top_ok fuel t o.
Proof.
  intros C [(_ & S & _) _]. destruct o; cbn [calm_call top_ok] in *; try contradiction; try exact C.
  - destruct C as (C1 & C2 & C3 & C4 & _). split; [exact C1|]. split; [exact C2|]. split; [exact C3|]. split; [|exact C4]. intros _ R. congruence.
  - destruct C as (C1 & C2 & C3). split; [exact C1|]. split; [exact C2|]. destruct ptr; try exact C3; try contradiction. destruct C3 as (-> & C3). split; [left; reflexivity|exact C3].
Qed.

Lemma call_voice g Ps now s i t o : Forall source_ok g -> calm_call fuel (vol i) o -> voice g Ps now s (i, t) ->
  exists t' l, tstep fuel t o = Ok (t', l) /\ voice g Ps now s (i, t').
Proof.
  intros F C V. pose proof (voice_vol _ _ _ _ _ F V) as V0. cbn [fst] in V0.
  destruct (tstep_ok fuel t o (vo_ok _ _ _ _ _ V) (call_top_ok _ _ _ C (vo_quiet _ _ _ _ _ V))) as (t' & l & E & O).
  destruct (call_quiet (vol i) fuel t o t' l V0 C (vo_quiet _ _ _ _ _ V) E) as [Q S]. exists t', l. split; [exact E|].
  eapply voice_next; [exact V|exact O|exact Q|exact S].
Qed.

Lemma tick_voice g Ps now s i t : Forall source_ok g -> voice g Ps now s (i, t) -> exists t', BKTrackTick fuel t = Ok t' /\ voice g Ps now s (i, t').
Proof.
  intros F V. pose proof (voice_vol _ _ _ _ _ F V) as V0. cbn [fst] in V0. destruct (tick_ticked fuel t (vo_ok _ _ _ _ _ V)) as (t' & E & O & _).
  destruct (tick_quiet' (vol i) fuel t t' V0 (vo_quiet _ _ _ _ _ V) E) as [Q S]. exists t'. split; [exact E|].
  eapply voice_next; [exact V|exact O|exact Q|exact S].
Qed.

Definition voices (g : list source) (Ps : list ledger) (now : Z) (own : list Z) (ts : list (Z * track)) : Prop := Forall2 (voice g Ps now) own ts.

Lemma call_track_voices g Ps now c own ts : Forall source_ok g -> calm_call fuel (vol (fst c)) (snd c) -> voices g Ps now own ts ->
  exists ts', call_track fuel ts c = Ok ts' /\ voices g Ps now own ts'.
Proof.
  intros F C V. unfold call_track. induction V as [|s [i t] own ts V1 V IH]; cbn [on_track]; [eexists; split; [reflexivity|constructor]|].
  destruct (Z.eqb_spec i (fst c)) as [E|E].
  - subst i. destruct (call_voice _ _ _ _ _ _ _ F C V1) as (t' & l & -> & V'). cbn [bind]. eexists. split; [reflexivity|]. constructor; assumption.
  - destruct IH as (ts' & -> & V'). cbn [bind]. eexists. split; [reflexivity|]. constructor; assumption.
Qed.

Lemma call_tracks_voices g Ps now own l : Forall source_ok g -> Forall (fun c => calm_call fuel (vol (fst c)) (snd c)) l -> forall ts, voices g Ps now own ts ->
  exists ts', call_tracks fuel ts l = Ok ts' /\ voices g Ps now own ts'.
Proof.
  intros F. induction 1 as [|c l C H IH]; intros ts V; cbn [call_tracks]; [eauto|].
  destruct (call_track_voices _ _ _ _ _ _ F C V) as (ts1 & -> & V1). cbn [bind]. apply IH. exact V1.
Qed.

Lemma tick_tracks_voices g Ps now own ts : Forall source_ok g -> voices g Ps now own ts -> exists ts', tick_tracks fuel ts = Ok ts' /\ voices g Ps now own ts'.
Proof.
  intros F. induction 1 as [|s [i t] own ts V1 V IH]; cbn [tick_tracks]; [eexists; split; [reflexivity|constructor]|].
  destruct (tick_voice _ _ _ _ _ _ F V1) as (t' & -> & V'). cbn [bind]. destruct IH as (ts' & -> & VS). cbn [bind]. eexists. split; [reflexivity|]. constructor; assumption.
Qed.

(** ** Clocks *)

Definition clock_calm (cur : Z) (k : vclock) : Prop :=
  clock_fine cur k /\ k_period k <= BK_TIME_MAX /\ (k_next k = 0 \/ k_period k <= Z.max MAX_CLOCK (k_next k)).

Variable e : env.
Hypothesis EC : env_calm fuel vol e.

Lemma calm_plain : env_plain e.
Proof. intros id n t. destruct (EC id n t) as [A B]. split; [|exact B]. eapply Forall_impl; [|exact A]. intros c H. eapply call_plain, H. Qed.

Lemma max_clock_val : MAX_CLOCK = 2305843009213693952.
Proof. reflexivity. Qed.

Lemma clock_tick_calm g Ps now own ts k cur : Forall source_ok g -> voices g Ps now own ts -> clock_calm cur k -> 0 <= cur <= MAX_CLOCK ->
  exists ts' k', BKClockTick e fuel ts k = Ok (ts', k') /\ voices g Ps now own ts' /\
    k_period k' <= BK_TIME_MAX /\ (k_next k' = 0 \/ k_period k' <= Z.max MAX_CLOCK (k_next k')).
Proof.
  intros F V ((K1 & K2 & K3) & K4 & K5) B. unfold BKClockTick, BKTimeIsEqual. destruct (EC (k_id k) (k_counter k) (k_time k)) as [C N].
  destruct (Z.eqb_spec (k_time k) (k_next k)) as [Q|Q]; [|eauto 10].
  destruct (call_tracks_voices g Ps now own _ F C ts V) as (ts1 & -> & V1). cbn [bind].
  assert (T : exists ts2, (if k_id k =? 0 then tick_tracks fuel ts1 else Ok ts1) = Ok ts2 /\ voices g Ps now own ts2).
  { destruct (k_id k =? 0); [apply tick_tracks_voices; assumption|eauto]. }
  destruct T as (ts2 & -> & V2). cbn [bind]. cbv zeta. set (nt := e_next e (k_id k) (k_counter k) (k_time k)) in *.
  unfold BKTimeIsGreater, BKTimeSub, BKTimeAdd, chk64, in_s64. unfold BK_TIME_MAX in *. rewrite max_clock_val in *.
  destruct (Z.gtb_spec nt (k_time k)) as [G|G].
  - replace ((-9223372036854775808 <=? nt - k_time k) && (nt - k_time k <=? 9223372036854775807)) with true by lia. cbn [bind].
    eexists _, _. split; [reflexivity|]. split; [exact V2|]. cbn [k_period k_next]. lia.
  - replace ((-9223372036854775808 <=? k_time k + k_period k) && (k_time k + k_period k <=? 9223372036854775807)) with true by lia. cbn [bind].
    eexists _, _. split; [reflexivity|]. split; [exact V2|]. cbn [k_period k_next]. lia.
Qed.

Lemma tick_clocks_calm g Ps now own cur : Forall source_ok g -> 0 <= cur <= MAX_CLOCK -> forall ks ts nt, Forall (clock_calm cur) ks -> voices g Ps now own ts ->
  exists ts' ks' nt', tick_clocks e fuel ts ks nt = Ok (ts', ks', nt') /\ voices g Ps now own ts' /\
    Forall (fun k => k_period k <= BK_TIME_MAX /\ (k_next k = 0 \/ k_period k <= Z.max MAX_CLOCK (k_next k))) ks'.
Proof.
  intros F B. induction ks as [|k ks IH]; intros ts nt C V; cbn [tick_clocks]; [eexists _, _, _; split; [reflexivity|split; [exact V|constructor]]|].
  inversion C as [|? ? C1 C2]; subst. destruct (clock_tick_calm _ _ _ _ _ _ _ F V C1 B) as (ts1 & k1 & -> & V1 & K). cbn [bind]. cbv zeta.
  destruct (IH ts1 (if BKTimeIsLess (k_next k1) nt then k_next k1 else nt) C2 V1) as (ts2 & ks2 & nt2 & -> & V2 & KS). cbn [bind].
  eexists _, _, _. split; [reflexivity|]. split; [exact V2|]. constructor; assumption.
Qed.

Lemma chk64_ok z : -9223372036854775808 <= z <= 9223372036854775807 -> chk64 z = Ok z.
Proof. intros H. unfold chk64, in_s64. replace ((-9223372036854775808 <=? z) && (z <=? 9223372036854775807)) with true by lia. reflexivity. Qed.

Lemma advance_clocks_calm cur per : 0 <= cur -> cur + per <= 9223372036854775807 -> 0 <= per -> forall ks,
  Forall (fun k => k_time k = cur) ks -> Forall (fun k => k_period k <= BK_TIME_MAX /\ (k_next k = 0 \/ k_period k <= Z.max MAX_CLOCK (k_next k))) ks ->
  exists ks', advance_clocks ks per = Ok ks' /\ Forall (fun k => k_period k <= BK_TIME_MAX /\ (k_next k = 0 \/ k_period k <= Z.max MAX_CLOCK (k_next k))) ks'.
Proof.
  intros C B P. induction ks as [|k ks IH]; intros T K; cbn [advance_clocks]; [eauto|]. inversion T as [|? ? T1 T2]; inversion K as [|? ? K1 K2]; subst.
  unfold BKTimeAddFUInt20. rewrite chk64_ok by lia. cbn [bind]. destruct (IH T2 K2) as (ks' & -> & K'). cbn [bind]. eexists. split; [reflexivity|]. constructor; assumption.
Qed.

Lemma advance_calm g Ps now own c : Forall source_ok g -> voices g Ps now own (cx_tracks c) -> Forall (clock_calm (cx_current c)) (cx_clocks c) -> cx_clocks c <> [] ->
  0 <= cx_current c <= MAX_CLOCK ->
  exists c' q, BKClocksAdvance e fuel c = Ok (c', q) /\ voices g Ps now own (cx_tracks c') /\ Forall (clock_calm (cx_current c')) (cx_clocks c').
Proof.
  intros F V K NE B. destruct (tick_clocks_calm _ _ _ _ _ F B _ _ BK_TIME_MAX K V) as (ts & ks & nt & E1 & V1 & K1).
  assert (KF : Forall (clock_fine (cx_current c)) (cx_clocks c)) by (eapply Forall_impl; [|exact K]; intros k H; apply H).
  destruct (tick_clocks_fine e fuel (cx_current c) calm_plain _ _ BK_TIME_MAX _ _ _ KF ltac:(unfold BK_TIME_MAX; rewrite max_clock_val in B; lia) E1) as (_ & I2 & I3 & _).
  rewrite max_clock_val in B. unfold BK_TIME_MAX in I2.
  set (dt := nt - cx_current c). set (per := if BKTimeIsLessFUInt20 dt (BK_INT_MAX / 3) then BKTimeGetFUInt20 dt else BK_INT_MAX / 3).
  assert (PR : 1 <= per <= 715827882).
  { unfold per, BKTimeIsLessFUInt20, BKTimeGetFUInt20, BK_INT_MAX. change (2147483647 / 3) with 715827882.
    destruct (Z.ltb_spec dt 715827882) as [Q|Q]; [rewrite u32_small by (unfold dt in *; lia); unfold dt in *; lia|lia]. }
  assert (A : exists c' q, BKClocksAdvance e fuel c = Ok (c', q) /\ cx_tracks c' = ts /\
    Forall (fun k => k_period k <= BK_TIME_MAX /\ (k_next k = 0 \/ k_period k <= Z.max MAX_CLOCK (k_next k))) (cx_clocks c')).
  { unfold BKClocksAdvance. rewrite E1. cbn [bind]. unfold BKTimeSub. rewrite chk64_ok by lia. cbn [bind]. cbv zeta. fold dt. fold per.
    destruct (advance_clocks_calm (cx_current c) per ltac:(lia) ltac:(lia) ltac:(lia) ks) as (ks' & -> & K'); [eapply Forall_impl; [|exact I3]; intros k H; apply H|exact K1|].
    cbn [bind]. unfold BKTimeAddFUInt20. rewrite chk64_ok by lia. cbn [bind]. eexists _, _. split; [reflexivity|]. split; [reflexivity|exact K']. }
  destruct A as (c' & q & E & ET & K'). exists c', q. split; [exact E|]. split; [rewrite ET; exact V1|].
  destruct (advance_fine e fuel c c' q calm_plain NE KF E) as (_ & _ & _ & A4 & _). rewrite Forall_forall in *. intros k I. split; [apply A4, I|apply K', I].
Qed.

(** ** Runs *)

Lemma track_run_safe g Ps rd s i t t0 time : Forall source_ok g -> hists g Ps -> voice g Ps (rd * 1048576 + t0) s (i, t) -> length Ps = Z.to_nat nc -> track_good t0 t ->
  0 <= rd -> 0 <= t0 <= time -> time <= 1789569706 -> time + 1000 <= Z.of_nat fuel ->
  exists t' ls, BKTrackRun fuel t time = Ok (t', ls) /\ length ls = length Ps /\ Forall (timed 0 time) ls /\
    (forall k u p, In (u, p) (nth k ls []) -> - (2 * vol i) <= p <= 2 * vol i) /\ time <= un_time (tr_unit t') < 4294967296 /\
    hists g (ext s (rd * 1048576) Ps ls) /\ voice g (ext s (rd * 1048576) Ps ls) (rd * 1048576 + time) s (i, t').
Proof.
  intros F H V LN [PT UT] R T0 T B. pose proof (voice_vol _ _ _ _ _ F V) as V0. cbn [fst] in V0. destruct V as [V1 V2 V3 V4 V5 V6 V7]. cbn [fst snd] in *.
  unfold BKTrackRun. destruct (update_ok fuel t V3) as (t1 & E1 & O1 & _). rewrite E1. cbn [bind].
  destruct (update_quiet' (vol i) t t1 V0 V4 E1) as ((QU & QM) & S1 & S2). pose proof (update_time _ _ E1) as TM.
  destruct (tk_unit _ _ O1) as (US & UC). pose proof (proj1 US) as W. pose proof (wf_period _ W) as PB.
  destruct (run_safe fuel (tr_unit t1) time US) as (u & l & E & US'); [intros X; destruct QU as (QU & _); contradiction|split; [congruence|lia]|lia|].
  rewrite E. cbn [bind]. exists (t_unit t1 u), l. split; [reflexivity|].
  destruct (unit_run_quiet (vol i) nc fuel (tr_unit t1) time u l US (conj QU (eq_trans S1 V5)) ltac:(lia) ltac:(lia) E) as ((QU' & CU') & TU & LL & LV & TI).
  assert (PT1 : Pu (tr_unit t1)) by (split; [exact PB|apply (wf_frac _ W)]).
  destruct (run_times fuel (tr_unit t1) time u l PT1 ltac:(lia) ltac:(lia) ltac:(lia) E) as (R1 & R2 & R3 & R4).
  assert (LE : length l = length Ps) by congruence.
  assert (LP : forall k, lastp (tr_unit t1) k = lastp (tr_unit t) k) by (intros k; unfold lastp; rewrite S2; reflexivity).
  assert (LB : forall k, - vol i <= lastp (tr_unit t1) k <= vol i).
  { intros k. destruct QU as (_ & _ & _ & _ & QL). unfold lastp. destruct (nth_in_or_default k (un_lastPulse (tr_unit t1)) 0) as [I| ->]; [|lia]. rewrite Forall_forall in QL. apply QL, I. }
  split; [exact LE|]. split; [eapply Forall_impl; [|exact TI]; intros x; apply timed_weak; lia|].
  split; [intros k z p X; eapply (levels_small (vol i) _ _ _ (LB k) (LV k)), X|].
  split; [cbn [t_unit tr_unit]; lia|].
  assert (BASE : forall k, (k < Z.to_nat nc)%nat -> levels (lo g k s) (hi g k s) (rd * 1048576 + un_time (tr_unit t)) (0 + sum_values (from s (nth k Ps [])))
    (map (fun tp => (rd * 1048576 + fst tp, snd tp)) (nth k l []))).
  { intros k Hk. destruct (V6 k) as [-> |]; [|lia]. pose proof (levels_move (- vol i) (vol i) (base g s k) (rd * 1048576) _ _ _ (LV k)) as M.
    unfold lo, hi. rewrite V2. rewrite TM, LP in M. exact M. }
  assert (FR : forall k, from s (nth k (ext s (rd * 1048576) Ps l) []) = from s (nth k Ps []) ++ map (fun tp => (rd * 1048576 + fst tp, snd tp)) (nth k l [])).
  { intros k. rewrite ext_nth, from_app, from_lab by exact LE. reflexivity. }
  split.
  - intros k. destruct (H k) as [H1 H2]. split.
    + intros x X. rewrite ext_nth in X by exact LE. apply in_app_or in X. destruct X as [X|X]; [apply H1, X|]. unfold lab in X. apply in_map_iff in X. destruct X as (tp & <- & _). exact V1.
    + intros s' I'. destruct (Z.eq_dec s s') as [<-|N].
      * rewrite FR. destruct (Nat.lt_ge_cases k (Z.to_nat nc)) as [Hk|Hk].
        -- apply (levels_app _ _ _ (rd * 1048576 + un_time (tr_unit t))); [apply H2, I'|intros z p X; specialize (V7 k z p X); lia|lia|apply BASE, Hk].
        -- rewrite (nth_overflow l) by lia. cbn [map]. rewrite app_nil_r. apply H2, I'.
      * rewrite ext_nth, from_app, from_lab_other, app_nil_r by assumption. apply H2, I'.
  - split; cbn [fst snd t_unit tr_unit]; try assumption.
    + apply ok_unit; [exact O1|]. split; [exact US'|apply (run_counted _ _ _ _ _ E UC)].
    + split; [exact QU'|exact QM].
    + intros k. rewrite FR, sum_values_app, sum_values_move, (run_sum _ _ _ _ _ k E), LP. destruct (V6 k) as [-> |]; [left; lia|right; assumption].
    + intros k z p X. rewrite FR in X. apply in_app_or in X. destruct X as [X|X].
      * specialize (V7 k z p X). lia.
      * apply in_map_iff in X. destruct X as ([z' p'] & X & Y). assert (z = rd * 1048576 + z') as -> by (cbn in X; congruence).
        destruct (nth_in_or_default k l []) as [I|Z0]; [|rewrite Z0 in Y; destruct Y]. rewrite Forall_forall in TI. specialize (TI _ I). unfold timed in TI. rewrite Forall_forall in TI. specialize (TI _ Y). cbn in TI. lia.
Qed.
End Tracks.
