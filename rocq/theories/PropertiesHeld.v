(** Property of tracks which hold a note: C113. *)
From Verif Require Import CInt CIntFacts TimeModel Kernels BufferModel BufferSpec BufferProofs BufferProofs2 PropertiesBuffer DataModel UnitModel UnitSpec UnitProofs UnitInv UnitInv2 UnitInv3 PropertiesUnit
  TrackModel TrackSpec TrackInv TrackProofs2 TrackProofs4 TrackPlay TrackTime TrackQuiet MixSpec MixProofs PropertiesMix ContextModel ContextSpec ContextSame ContextShift ContextRun ContextChunk ContextGen ContextGen2 ContextHist
  SafeSpec SafeBuffer SafeRun SafeLoop SafeProofs PropertiesSafe PropertiesPeriod PlainModel PlainProofs PropertiesPlain HeldProofs.
Ltac Zify.zify_post_hook ::= idtac.

(** ** Programs *)

(** Before frames are generated, tracks are attached and called. *)
Definition setting (o : xop) : Prop := match o with XAttachTrack _ _ | XTrack _ _ => True | _ => False end.

(** The track holds a note of a waveform, and [u] is its unit after changes were passed on to it. *)
Definition holds (t : track) (u : bkunit) : Prop :=
  plainly t /\ tonal u /\ exists t', BKTrackUpdateUnit t = Ok t' /\ tr_unit t' = u.

(** ** Proofs *)

Lemma harm_limits : (0 <= cell_gain BKBufferStepPhasesHarm /\ 0 <= sum_gain BKBufferStepPhasesHarm 32767) /\
  (16383 <= 16383 /\ 2 * 16383 * cell_gain BKBufferStepPhasesHarm <= 2147483647 /\ 2 * 16383 * sum_gain BKBufferStepPhasesHarm 32767 <= 2147483647).
Proof. destruct harm_gains as [-> ->]. lia. Qed.

Lemma init_harm ch rate period : set_pulse_kernel (BKContextInit ch rate period) (Some BKBufferStepPhasesHarm) = BKContextInit ch rate period.
Proof.
  unfold set_pulse_kernel, BKContextInit, x_channels. cbn [cx_rate cx_period cx_current cx_delta cx_clocks cx_tracks cx_channels]. f_equal.
  generalize (Z.to_nat (BKClamp (u32 ch) 1 BK_MAX_CHANNELS)). intros z. induction z as [|z IH]; cbn [repeat map]; [reflexivity|]. rewrite IH. reflexivity.
Qed.

(** What setting up does not change. *)
Record fresh (chs : list buffer) (c : context) : Prop := {
  fr_channels : cx_channels c = chs;
  fr_current : cx_current c = 0;
  fr_delta : cx_delta c = 0;
  fr_times : Forall (fun it => un_time (tr_unit (snd it)) = 0) (cx_tracks c) }.

Lemma calls_time fuel id o : plain_op o = true -> forall ts ts', on_track (fun t => let* (t, _) := tstep fuel t o in Ok t) ts id = Ok ts' ->
  Forall (fun it => un_time (tr_unit (snd it)) = 0) ts -> Forall (fun it => un_time (tr_unit (snd it)) = 0) ts'.
Proof.
  intros P. induction ts as [|[i t] ts IH]; intros ts' E F; cbn [on_track] in E; [assert (ts' = []) as -> by congruence; constructor|].
  inversion F as [|x y F1 F2]; subst. cbn [snd] in F1. destruct (i =? id).
  - binv E t1 E1. binv E1 r E2. destruct r as [t2 l]. assert (t1 = t2) as -> by congruence. assert (ts' = (i, t2) :: ts) as -> by congruence. constructor; [|exact F2]. cbn [snd].
    rewrite (tstep_time _ _ _ _ _ P E2). exact F1.
  - binv E ts1 E1. assert (ts' = (i, t) :: ts1) as -> by congruence. constructor; [exact F1|]. apply IH; assumption.
Qed.

Lemma attach_master_same c : cx_channels (attach_master c) = cx_channels c /\ cx_current (attach_master c) = cx_current c /\ cx_delta (attach_master c) = cx_delta c /\ cx_tracks (attach_master c) = cx_tracks c.
Proof. unfold attach_master. destruct (BKTimeIsGreater _ _); [destruct (existsb _ _)|]; auto. Qed.

Lemma attach_time t nch rate t' ret : BKTrackAttach t nch rate 0 = Ok (t', ret) -> ret = 0 -> un_time (tr_unit t') = 0.
Proof.
  intros E R. unfold BKTrackAttach in E. destruct (BKUnitAttach (tr_unit t) nch 0) as [u r] eqn:EA. cbv zeta in E. unfold BKUnitAttach in EA.
  destruct (un_ctx (tr_unit t)) as [j|].
  - assert (r = BK_INVALID_STATE) as -> by congruence. cbn in E. assert (ret = BK_INVALID_STATE) by congruence. subst. discriminate.
  - assert (r = 0) as -> by congruence. cbn [Z.eqb] in E. binv E t1 E1. apply update_time in E1. assert (t' = t1) as -> by congruence. rewrite E1.
    destruct (nch =? 2); cbn [put t_flags t_rate t_unit tr_unit]; assert (u = set_time (set_ctx (tr_unit t) (Some nch)) 0) as -> by congruence; reflexivity.
Qed.

Lemma step_fresh m nn e fuel chs c o c' l : fresh chs c -> setting o -> (forall id p, o = XTrack id p -> plain_op p = true) -> xstep m nn e fuel c o = Ok (c', l) -> fresh chs c'.
Proof.
  intros [F1 F2 F3 F4] S P E. destruct o; try contradiction S; cbn [xstep] in E.
  - binv E r E1. destruct r as [c1 ret]. assert (c' = c1) as -> by congruence. clear E. unfold attach_track in E1. rewrite F3 in E1. binv E1 r E2. destruct r as [t1 ret1].
    destruct (Z.eqb_spec ret1 0) as [Q|Q]; [|assert (c1 = c) as -> by congruence; split; assumption].
    match type of E1 with Ok (attach_master ?x, _) = _ => assert (c1 = attach_master x) as -> by congruence; destruct (attach_master_same x) as (A1 & A2 & A3 & A4) end.
    split; [rewrite A1; exact F1|rewrite A2; exact F2|rewrite A3; exact F3|]. rewrite A4. cbn [x_tracks cx_tracks]. apply Forall_app. split; [exact F4|]. constructor; [|constructor].
    cbn [snd]. eapply attach_time; eassumption.
  - binv E ts E1. assert (c' = x_tracks c ts) as -> by congruence. split; try assumption. cbn [x_tracks cx_tracks]. eapply calls_time; [|exact E1|exact F4]. apply (P id o eq_refl).
Qed.

Section Setup.
Variable fuel : nat.
Hypothesis HF : 1789570706 <= Z.of_nat fuel.
Variable nc : Z.
Hypothesis NC : 1 <= nc <= 8.
Variable vol : Z -> Z.
Variable e : env.
Hypothesis EC : env_calm fuel vol e.
Variable m nn : nat.
Hypothesis HM : 4194304 <= Z.of_nat m.
Hypothesis HN : 1073741824 < Z.of_nat nn.
Let K := BKBufferStepPhasesHarm.
Notation tune := (SafeProofs.tune K 32767 16383 fuel nc vol).

Lemma gain32767 : gain_ok K 32767.
Proof. intros row I. apply (C06_kernel_gain BKBufferStepPhasesHarm); auto. Qed.

Lemma setup_state chs : forall ops started ids used frames c c' ls, tune started ids used frames c -> 0 <= frames <= MAX_FRAMES -> calm fuel vol 16383 started ids used frames ops ->
  Forall setting ops -> fresh chs c -> xruns m nn e fuel c ops = Ok (c', ls) ->
  (exists started ids used frames, tune started ids used frames c' /\ 0 <= frames) /\ fresh chs c'.
Proof.
  induction ops as [|o ops IH]; intros started ids used frames c c' ls T F C S FR E; cbn [xruns] in E.
  { assert (c' = c) as -> by congruence. split; [exists started, ids, used, frames; split; [exact T|lia]|exact FR]. }
  binv E r E1. destruct r as [c1 l]. binv E r E2. destruct r as [c2 ls2]. assert (c' = c2) as -> by congruence. inversion S as [|? ? S1 S2]; subst.
  destruct (step_calm K 32767 kernel_ok_harm gain32767 16383 (proj1 harm_limits) (proj2 harm_limits) fuel nc NC vol e EC HF m nn HM HN started ids used frames c o ops T (proj1 F) (proj2 F) C)
    as (c1' & l' & st' & ids' & used' & fr' & E1' & T' & F' & C' & _).
  assert (c1' = c1) as -> by congruence. eapply (IH _ _ _ _ c1); try eassumption. eapply step_fresh; try eassumption.
  intros id p ->. cbn [calm] in C. destruct C as (C & _). exact (call_plain fuel nc vol _ _ C).
Qed.

Lemma loudest_quiet V u : 0 <= V -> quiet_unit V u -> unit_wf u -> loudest u <= V.
Proof.
  intros V0 (_ & _ & _ & Q1 & Q2) W. unfold loudest.
  assert (A : Forall (fun x => x <= V) (un_volume u ++ map Z.abs (un_lastPulse u))).
  { apply Forall_app. split; [exact Q1|]. apply Forall_map. eapply Forall_impl; [|exact Q2]. cbv beta. intros; lia. }
  induction A as [|x l X A IH]; cbn [fold_right]; lia.
Qed.

Lemma marks_plainly t t' : marks t t' -> plainly t -> plainly t'.
Proof. intros (u & a & b & c & ->) H. exact H. Qed.

(** The tracks of such a context and the units they are heard as. *)
Lemma start_units g Ps now own ts us : Forall source_ok g -> voices fuel nc vol g Ps now own ts -> Forall (fun it => un_time (tr_unit (snd it)) = 0) ts -> Forall2 (fun it u => holds (snd it) u) ts us ->
  Forall (fun u => startable nc u /\ un_time u = 0) us /\ Forall2 (fun o it => held nc o 0 0 (snd it)) us ts /\ zsum (map loudest us) <= zsum (map vol (map fst ts)).
Proof.
  intros SO V T H. revert own us V H. induction T as [|[i t] ts T1 T IH]; intros own us V H; inversion H as [|x u y us' H1 H2]; subst.
  { split; [constructor|]. split; [constructor|]. cbn. lia. }
  inversion V as [|s x own' y V1 V2]; subst. cbn [snd fst] in *. destruct (IH _ _ V2 H2) as (I1 & I2 & I3). destruct H1 as (P & TO & t' & E & <-).
  destruct (update_plays fuel t (vo_ok _ _ _ _ _ _ _ _ V1)) as (t1 & E1 & O & M & S & CX & _). assert (t1 = t') as -> by congruence.
  pose proof (voice_vol _ _ _ _ _ _ _ _ SO V1) as V0. destruct (update_quiet' _ _ _ V0 (vo_quiet _ _ _ _ _ _ _ _ V1) E) as (Q & _).
  pose proof (update_time _ _ E) as TM. destruct (tk_unit _ _ O) as (US & _).
  assert (ST : startable nc (tr_unit t')) by (split; [exact US|split; [exact TO|rewrite CX; apply (vo_ctx _ _ _ _ _ _ _ _ V1)]]).
  split; [constructor; [split; [exact ST|congruence]|exact I1]|]. split.
  - constructor; [|exact I2]. cbn [snd]. split; [exact P|]. exists t'. split; [exact E|]. split; [eapply marks_plainly; eassumption|]. split; [exact S|]. apply start_at; [exact ST|congruence].
  - pose proof (loudest_quiet _ _ V0 (proj1 Q) (proj1 US)) as LQ. cbn [fst] in LQ. unfold zsum in *. cbn [map fold_right fst]. lia.
Qed.

Lemma start_sounding started ids used frames c us : tune started ids used frames c -> 0 <= frames -> fresh (repeat BKBufferInit (Z.to_nat nc)) c -> Forall2 (fun it u => holds (snd it) u) (cx_tracks c) us ->
  Forall (fun u => startable nc u /\ un_time u = 0) us /\ zsum (map loudest us) <= 16383 /\ sounding K nc us 0 0 (repeat [] (Z.to_nat nc)) c.
Proof.
  intros [TI TP TL (g & Ps & own & S & TU)] F0 [F1 F2 F3 F4] H. pose proof (sg_soft _ _ _ _ _ _ _ _ _ _ _ S) as (SO & _). pose proof (sg_voices _ _ _ _ _ _ _ _ _ _ _ S) as V.
  destruct (start_units g Ps _ own _ us SO V F4 H) as (U1 & U2 & U3).
  assert (LT : zsum (map loudest us) <= 16383).
  { pose proof (voices_sum fuel nc vol g Ps _ own _ V) as VS. rewrite <- VS in U3. pose proof (sum_incl (cap g) own (nums g) (sg_own _ _ _ _ _ _ _ _ _ _ _ S) (voices_own fuel nc vol _ _ _ _ _ V)) as SI.
    rewrite <- total_nums in SI. rewrite TU in SI. assert (used <= 16383) by exact TL. apply Z.le_trans with (zsum (map (cap g) own)); [exact U3|]. apply Z.le_trans with used; [|assumption]. apply SI.
    intros x X. pose proof (source_In g x SO X 0%nat) as Q. unfold cap. lia. }
  split; [exact U1|]. split; [exact LT|]. split.
  - exact U2.
  - split; [apply repeat_length|]. intros k Q. rewrite nth_repeat. split; [intros x []|]. intros s Hs. unfold wave_pulses.
    assert (B : before (un_time (nth (Z.to_nat s) us unit0)) (un_period (nth (Z.to_nat s) us unit0)) (0 * 1048576 + 0) = 0).
    { unfold before. destruct (nth_in_or_default (Z.to_nat s) us unit0) as [I|E]; [|rewrite E; reflexivity]. rewrite Forall_forall in U1. destruct (U1 _ I) as (_ & ->). reflexivity. }
    rewrite B. match goal with |- context [if ?x then _ else _] => destruct x end; reflexivity.
  - rewrite F1. clear. induction (Z.to_nat nc) as [|j IH]; cbn [repeat]; constructor; [apply fresh_channel|exact IH].
  - exact (sg_clocks _ _ _ _ _ _ _ _ _ _ _ S).
  - lia.
  - rewrite F2. reflexivity.
Qed.
End Setup.

Lemma holds_units n us : Forall (fun u => startable n u /\ un_time u = 0) us -> forall k x, tone BKBufferStepPhasesHarm us k x = units_at us k x.
Proof.
  intros H k x. unfold tone, units_at. f_equal. apply map_ext_in. intros u U. rewrite Forall_forall in H. destruct (H u U) as (_ & T0).
  unfold wave_pulses, unit_pulses, before. rewrite T0, Z.sub_0_r. reflexivity.
Qed.

(** ** C113 *)

(** Tracks are attached to a new context and called, and callbacks do not call them later.  If
    all of them hold a note then every request succeeds, and the frames are the waveforms of their units,
    from the beginning and added up.  Clocks and their callbacks, and how many frames are
    asked for at once, make no difference. *)
Theorem C113_held ch rate period fuel vol e m nn setup sizes c ls us :
  0 < period <= MAX_CLOCK -> env_still e -> Forall setting setup -> calm fuel vol 16383 false [] 0 0 setup ->
  1789570706 <= Z.of_nat fuel -> 4194304 <= Z.of_nat m -> 1073741824 < Z.of_nat nn ->
  xruns m nn e fuel (BKContextInit ch rate period) setup = Ok (c, ls) -> cx_tracks c <> [] -> Forall2 (fun it u => holds (snd it) u) (cx_tracks c) us ->
  Forall (fun s => 0 <= s < 4294967296) sizes -> zsum sizes <= MAX_FRAMES ->
  exists c' frames, xruns m nn e fuel c (map XGenerate sizes) = Ok (c', frames) /\
    forall k, (k < Z.to_nat (BKClamp (u32 ch) 1 BK_MAX_CHANNELS))%nat -> concat (map (fun f => nth k f []) frames) = melody us k (zsum sizes).
Proof.
  intros P ES ST C HF HM HN E NT H SZ MF. pose proof (channels_range ch) as NC. set (nc := BKClamp (u32 ch) 1 BK_MAX_CHANNELS) in *.
  pose proof (still_calm fuel vol e ES) as EC. destruct harm_limits as (G0 & GL).
  pose proof (start_tune BKBufferStepPhasesHarm 32767 kernel_ok_harm 16383 G0 GL fuel nc NC vol e EC m nn rate period ch P ltac:(lia) eq_refl) as T0. rewrite init_harm in T0.
  assert (FR0 : fresh (repeat BKBufferInit (Z.to_nat nc)) (BKContextInit ch rate period)) by (split; [reflexivity|reflexivity|reflexivity|constructor]).
  destruct (setup_state fuel HF nc NC vol e EC m nn HM HN _ setup _ _ _ _ _ c ls T0 ltac:(unfold MAX_FRAMES; lia) C ST FR0 E) as ((st & ids & used & fr & T & F0) & FR).
  destruct (start_sounding fuel nc vol m nn st ids used fr c us T F0 FR H) as (U1 & U2 & SO).
  assert (NI : ids <> []). { intros Q. pose proof (iv_ids _ _ _ (tn_inv _ _ _ _ _ _ _ _ _ _ _ T)) as I. rewrite Q in I. destruct (cx_tracks c); [congruence|discriminate I]. }
  destruct (inv_able _ _ _ (tn_inv _ _ _ _ _ _ _ _ _ _ _ T) NI) as (RD & _).
  assert (SOFT : soft BKBufferStepPhasesHarm 32767 (map unit_source us)).
  { split; [apply sources_ok|]. replace (total (map unit_source us)) with (zsum (map loudest us)) by (unfold total; rewrite map_map; reflexivity). destruct harm_gains as [-> ->]. lia. }
  assert (TOT : total (map unit_source us) <= 16383) by (unfold total; rewrite map_map; exact U2).
  destruct (requests_held BKBufferStepPhasesHarm 32767 kernel_ok_harm gain32767 fuel HF nc ltac:(lia) us U1 SOFT TOT e ES m nn HN ltac:(intros ->; cbn in HM; lia) sizes 0 (repeat [] (Z.to_nat nc)) c) as (c' & fs & R & _ & TN).
  - rewrite (fr_delta _ _ FR). exact SO.
  - exact RD.
  - exact NT.
  - eapply Forall_impl; [|exact SZ]. cbv beta. intros s S. lia.
  - unfold MAX_CLOCK. unfold MAX_FRAMES in MF. lia.
  - exists c', fs. split; [exact R|]. intros k Q. rewrite (TN k Q). unfold PlainProofs.tune, melody. cbn [Z.to_nat zseq map integrate_end integrate last]. f_equal. f_equal. apply map_ext. intros x. apply (holds_units nc), U1.
Qed.

Print Assumptions C113_held.
