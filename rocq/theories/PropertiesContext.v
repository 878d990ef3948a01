(** Properties of contexts: C50-C53, C80-C84. *)
From Verif Require Import CInt CIntFacts TimeModel Kernels BufferModel BufferSpec BufferProofs DataModel UnitModel ToneModel TrackModel TrackSpec TrackTime UnitShift
  PropertiesTrack ContextModel ContextSpec ContextSame ContextShift ContextRun ContextChunk ContextGen ContextGen2 ContextHist ContextTime.
Ltac Zify.zify_post_hook ::= idtac.

(** ** Examples *)

(** Callbacks that do nothing, and a callback of the master clock that changes the volume of a track. *)
Definition idle : env := mk_env (fun _ _ _ => 0) (fun _ _ _ => []).
Definition fading : env := mk_env (fun _ _ _ => 0)
  (fun id n _ => if id =? 0 then [(1, OAttr BK_VOLUME (32767 - 1000 * n))] else []).

Definition settings (note : Z) : list top :=
  [OAttr BK_MASTER_VOLUME 32767; OAttr BK_VOLUME 32767; OAttr BK_DUTY_CYCLE 4; OAttr BK_NOTE note].
(** A track which plays a note as soon as it is attached. *)
Definition plays (note : Z) : track := track_after BK_SQUARE (settings note).
Definition high : Z := 25165824.

(** A context with a master clock of 240 ticks per second at 44100 Hz. *)
Definition mono : context := BKContextInit 1 44100 192675840.
Definition stereo : context := BKContextInit 2 44100 192675840.
Definition quick : context := BKContextInit 1 44100 20971520.

Lemma idle_ok : env_ok idle.
Proof. intros id n t. split; [constructor|]. cbn. unfold BK_TIME_MAX. lia. Qed.
Lemma fading_ok : env_ok fading.
Proof. intros id n t. split; [|cbn; unfold BK_TIME_MAX; lia]. cbn. destruct (id =? 0); repeat constructor. Qed.
Lemma low_free : track_free (plays 0).
Proof. vm_compute. repeat split; congruence || discriminate. Qed.
Lemma high_free : track_free (plays high).
Proof. vm_compute. repeat split; congruence || discriminate. Qed.

(** A history with clocks, changes while the context runs and a reset. *)
Definition history : list xop :=
  [XAttachClock 7 20000000; XAttachTrack 1 (plays high); XGenerate 30; XTrack 1 (OAttr BK_NOTE 12582912); XPeriod 30000000;
   XAttachTrack 2 (plays 0); XGenerate 70; XDetachTrack 1; XKernel (Some BKBufferStepPhasesSinc); XGenerate 10; XReset;
   XAttachTrack 3 (plays high); XGenerate 20].

Ltac legality := cbn [legal clocked attached app filter Z.eqb Pos.eqb negb orb sets];
  repeat match goal with
  | |- _ /\ _ => split
  | |- track_free (plays 0) => exact low_free
  | |- track_free (plays high) => exact high_free
  | |- kernel_ok _ => exact kernel_ok_sinc
  | |- un_ctx (tr_unit (plays 0)) = None => exact (proj1 low_free)
  | |- un_ctx (tr_unit (plays high)) = None => exact (proj1 high_free)
  | |- True => exact I
  | |- _ <> [] => discriminate
  | |- _ = _ -> _ => intro
  | |- _ = _ => reflexivity || discriminate
  | |- _ < _ => lia
  | |- _ <= _ => unfold BK_TIME_MAX; lia
  | |- _ <> _ => lia
  end.

Lemma history_legal : legal false [] history /\ attached [] history <> [].
Proof. unfold history. legality. Qed.

(** A computation which succeeds. *)
Lemma computed {A} (r : res A) (Q : A -> Prop) : match r with Ok a => Q a | Err _ => False end -> exists a, r = Ok a /\ Q a.
Proof. destruct r as [a|]; [eauto|intros []]. Qed.

(** ** C50 *)

(** After every legal program with an attached track, generating [size] frames returns [size] and
    gives this number of frames for every channel. *)
Theorem C50_generate_exact_partial e fuel m n nc rate period ops c ls m' n' size c' w l :
  env_ok e -> 0 < period -> legal false [] ops -> attached [] ops <> [] ->
  xruns m n e fuel (BKContextInit nc rate period) ops = Ok (c, ls) ->
  0 <= size < 2147483648 -> BKContextGenerate m' n' e fuel c size = Ok (c', w, l) ->
  w = size /\ length l = length (cx_channels c) /\ Forall (fun s => Z.of_nat (length s) = size) l.
Proof.
  intros P Q L A E S G. pose proof (legal_able m n e fuel P nc rate period ops c ls Q L A E) as AB.
  destruct (generate_exact e fuel P c size m' n' c' w l AB ltac:(lia) G) as (H1 & _ & H2 & H3). auto.
Qed.

(** The frames of earlier calls have the sizes asked for, too. *)
Theorem C50_history_sizes_partial e fuel m n nc rate period : env_ok e -> 0 < period -> forall ops ops' size c ls,
  legal false [] (ops ++ XGenerate size :: ops') -> 0 <= size < 2147483648 ->
  xruns m n e fuel (BKContextInit nc rate period) (ops ++ XGenerate size :: ops') = Ok (c, ls) ->
  exists l, nth_error ls (length ops) = Some l /\ Forall (fun s => Z.of_nat (length s) = size) l /\ l <> [].
Proof.
  intros P Q ops ops' size c ls L S. pose proof (init_inv nc rate period Q) as I. revert I L. generalize (BKContextInit nc rate period). generalize false. generalize (@nil Z).
  revert ls. induction ops as [|o ops IH]; intros ls ids st c0 I L E.
  - cbn [app] in *. cbn [xruns] in E. binv E r E1. destruct r as [c1 l]. binv E r E2. destruct r as [c2 ls2]. assert (ls = l :: ls2) as -> by congruence.
    exists l. split; [reflexivity|]. cbn [xstep] in E1. binv E1 r E3. destruct r as [[c3 w] l3]. assert (l = l3) as -> by congruence. rewrite u32_small in E3 by lia.
    destruct L as [L _]. pose proof (inv_able _ _ _ I L) as AB. destruct (generate_exact e fuel P c0 size m n c3 w l3 AB ltac:(lia) E3) as (_ & _ & H2 & H3).
    split; [exact H3|]. intros Z. rewrite Z in H2. destruct AB as [R _]. pose proof (rd_some_channel _ R) as N. destruct (cx_channels c0); [congruence|discriminate].
  - cbn [app] in *. cbn [xruns] in E. binv E r E1. destruct r as [c1 l]. binv E r E2. destruct r as [c2 ls2]. assert (ls = l :: ls2) as -> by congruence. assert (c = c2) as -> by congruence.
    destruct (legal_step m n e fuel P _ _ _ _ _ _ _ I L E1) as (s & i & I1 & L1 & _). cbn [length nth_error]. eapply IH; eassumption.
Qed.

Example C50_ex : match xruns 9 99 fading 1000 stereo history with
  | Ok (_, ls) => map (map (@length Z)) ls = [[]; []; [30; 30]; []; []; []; [70; 70]; []; []; [10; 10]; []; []; [20; 20]]%nat
  | Err _ => False
  end.
Proof. vm_compute. reflexivity. Qed.

(** If frames are generated before a track is attached, the time of the context is no longer valid:
    after 100 frames, a track plays nothing, and [BKContextGenerate] returns no frames. *)
Definition early : list xop := [XGenerate 100; XAttachTrack 1 (plays high)].
Theorem C50_early_refuted : exists c ls c' w l, xruns 9 99 idle 1000 mono early = Ok (c, ls) /\ attached [] early <> [] /\
  BKContextGenerate 9 99 idle 1000 c 1024 = Ok (c', w, l) /\ w = 0 /\ l = [[]].
Proof.
  destruct (computed (xruns 9 99 idle 1000 mono early) (fun r => match BKContextGenerate 9 99 idle 1000 (fst r) 1024 with Ok (_, w, l) => w = 0 /\ l = [[]] | Err _ => False end))
    as ([c ls] & E & H); [vm_compute; split; reflexivity|].
  destruct (computed (BKContextGenerate 9 99 idle 1000 c 1024) (fun r => snd (fst r) = 0 /\ snd r = [[]])) as ([[c' w] l] & G & H1 & H2).
  { cbn [fst] in H. destruct (BKContextGenerate 9 99 idle 1000 c 1024) as [[[? ?] ?]|]; exact H. }
  exists c, ls, c', w, l. split; [exact E|]. split; [discriminate|]. split; [exact G|]. split; assumption.
Qed.

(** The same happens if all tracks are detached for a while: the clocks run on, but no frames are made. *)
Definition gap : list xop := [XAttachTrack 1 (plays high); XGenerate 10; XDetachTrack 1; XGenerate 280; XAttachTrack 1 (plays high)].
Theorem C50_gap_refuted : exists c ls c' w l, xruns 9 99 idle 1000 mono gap = Ok (c, ls) /\ attached [] gap <> [] /\
  BKContextGenerate 9 99 idle 1000 c 50 = Ok (c', w, l) /\ w = 0 /\ l = [[]].
Proof.
  destruct (computed (xruns 9 99 idle 1000 mono gap) (fun r => match BKContextGenerate 9 99 idle 1000 (fst r) 50 with Ok (_, w, l) => w = 0 /\ l = [[]] | Err _ => False end))
    as ([c ls] & E & H); [vm_compute; split; reflexivity|].
  destruct (computed (BKContextGenerate 9 99 idle 1000 c 50) (fun r => snd (fst r) = 0 /\ snd r = [[]])) as ([[c' w] l] & G & H1 & H2).
  { cbn [fst] in H. destruct (BKContextGenerate 9 99 idle 1000 c 50) as [[[? ?] ?]|]; exact H. }
  exists c, ls, c', w, l. split; [exact E|]. split; [discriminate|]. split; [exact G|]. split; assumption.
Qed.

(** ** C51 *)

(** After every legal program, a call for [a + b] frames gives the same frames and leaves the context
    in the same state as a call for [a] and a call for [b] frames. *)
Theorem C51_generate_split_partial e fuel m n nc rate period ops c ls a b :
  env_ok e -> 0 < period -> legal false [] ops -> attached [] ops <> [] ->
  xruns m n e fuel (BKContextInit nc rate period) ops = Ok (c, ls) ->
  0 <= a -> 0 <= b -> a + b < 2147483648 -> forall c2 w l,
  (exists m n, BKContextGenerate m n e fuel c (a + b) = Ok (c2, w, l)) <->
  exists m1 n1 m2 n2 c1 w1 w2 l1 l2, BKContextGenerate m1 n1 e fuel c a = Ok (c1, w1, l1) /\
    BKContextGenerate m2 n2 e fuel c1 b = Ok (c2, w2, l2) /\ w = w1 + w2 /\ l = join l1 l2.
Proof.
  intros P Q L A E A0 B0 AB c2 w l. pose proof (legal_able m n e fuel P nc rate period ops c ls Q L A E) as R.
  apply (generate_split e fuel P c a b R A0 B0). lia.
Qed.

Example C51_ex : match xruns 9 99 fading 1000 stereo history with
  | Ok (c, _) => exists c2 l, BKContextGenerate 9 99 fading 1000 c 60 = Ok (c2, 60, l) /\ existsb (fun v => negb (v =? 0)) (nth 1 l []) = true
  | Err _ => False
  end.
Proof.
  assert (H : match xruns 9 99 fading 1000 stereo history with
    | Ok (c, _) => match BKContextGenerate 9 99 fading 1000 c 60 with Ok (_, w, l) => w = 60 /\ existsb (fun v => negb (v =? 0)) (nth 1 l []) = true | Err _ => False end
    | Err _ => False end) by (vm_compute; split; reflexivity).
  destruct (xruns 9 99 fading 1000 stereo history) as [[c ls]|]; [|exact H].
  destruct (BKContextGenerate 9 99 fading 1000 c 60) as [[[c2 w] l]|]; [|destruct H]. destruct H as [-> H]. exists c2, l. auto.
Qed.

(** A context which has been without tracks for a while: 200 frames are made by one call, but only 180
    by a call for 20 and one for 180. *)
Theorem C51_gap_refuted : exists c ls c2 l c1 l1 c3 l2, xruns 9 99 idle 1000 mono gap = Ok (c, ls) /\ attached [] gap <> [] /\
  BKContextGenerate 9 99 idle 1000 c (20 + 180) = Ok (c2, 200, l) /\
  BKContextGenerate 9 99 idle 1000 c 20 = Ok (c1, 0, l1) /\ BKContextGenerate 9 99 idle 1000 c1 180 = Ok (c3, 180, l2).
Proof.
  destruct (computed (xruns 9 99 idle 1000 mono gap) (fun r => match BKContextGenerate 9 99 idle 1000 (fst r) (20 + 180) with Ok (_, w, _) => w = 200 | Err _ => False end /\
    match BKContextGenerate 9 99 idle 1000 (fst r) 20 with Ok (c1, w, _) => w = 0 /\ match BKContextGenerate 9 99 idle 1000 c1 180 with Ok (_, w, _) => w = 180 | Err _ => False end | Err _ => False end))
    as ([c ls] & E & H1 & H2); [vm_compute; repeat split|]. cbn [fst] in *.
  destruct (BKContextGenerate 9 99 idle 1000 c (20 + 180)) as [[[c2 w] l]|] eqn:G; [|tauto]. destruct (BKContextGenerate 9 99 idle 1000 c 20) as [[[c1 w1] l1]|] eqn:G1; [|tauto].
  destruct H2 as [H2 H3]. destruct (BKContextGenerate 9 99 idle 1000 c1 180) as [[[c3 w2] l2]|] eqn:G2; [|tauto]. subst w w1 w2.
  exists c, ls, c2, l, c1, l1, c3, l2. split; [exact E|]. split; [discriminate|]. split; [exact G|]. split; [exact G1|exact G2].
Qed.

(** ** C53 *)

(** All channels have the same time and the same number of frames, always; all blocks have the
    same number of frames for each channel. *)
Theorem C53_channels_together m n e fuel nc rate period ops c ls : xruns m n e fuel (BKContextInit nc rate period) ops = Ok (c, ls) ->
  (exists t k, Forall (fun b => b_time b = t /\ b_capacity b = k) (cx_channels c)) /\
  Forall (fun l => exists k, Forall (fun s => length s = k) l) ls.
Proof.
  intros E. destruct (runs_same m n e fuel ops _ _ _ (init_same nc rate period) E) as [(t & k & _ & H) H2]. split; [|exact H2]. exists t, k. exact H.
Qed.

Example C53_ex : match xruns 9 99 fading 1000 (BKContextInit 3 44100 20971520)
    [XAttachTrack 1 (plays high); XEnd 12345678; XRead 5; XAttachTrack 2 (plays 0); XGenerate 20; XGenerateTo (fun _ _ => 0) 50000000] with
  | Ok (c, ls) => map (@length Z) (nth 5 ls []) = [79; 79; 79]%nat
  | Err _ => False end.
Proof. vm_compute. reflexivity. Qed.

(** ** C52 *)

(** If a context has a clock, the loops of [BKContextGenerateToTime] end for every history of calls, end
    time and function [write] after a number of iterations which does not depend on [write]:
    then the call succeeds with blocks of at most 1024 frames, or there is a value out of range, or
    a call of a clock or a track fails.  No channel has more than 4095 frames. *)
Theorem C52_to_time_terminates_partial e fuel m n nc rate period ops c ls endTime :
  env_ok e -> 0 < period -> clocked false false false ops -> has_clock ops = true ->
  xruns m n e fuel (BKContextInit nc rate period) ops = Ok (c, ls) -> endTime <= BK_TIME_MAX ->
  exists M, forall m' n' write, (M <= m')%nat -> (M <= n')%nat ->
  match BKContextGenerateToTime m' n' e fuel write c endTime with
  | Ok (c', _, blocks) => Forall (Forall (fun s => Z.of_nat (length s) <= 1024)) blocks /\
                          Forall (fun b => 0 <= b_capacity b <= 4095) (cx_channels c')
  | Err x => blamed e fuel c x
  end.
Proof.
  intros P Q L K E T. destruct (clocked_runs e fuel P m n _ _ _ _ _ _ _ (init_tinv nc rate period Q) L E) as [B N]. specialize (N K).
  exists (Z.to_nat (Z.max 1073741824 (distance endTime c) + 1)). intros m' n' write HM HN. unfold BKContextGenerateToTime.
  destruct (generate_to_loop m' n' e fuel write c endTime 0 0) as [[[c' r] blocks]|x] eqn:G.
  - destruct (generate_to_base e fuel P m' n' write endTime T c 0 0%nat c' r blocks B G) as (B1 & _ & _ & H). split; [exact H|].
    eapply Forall_impl; [|apply (bs_channels _ B1)]. intros b (_ & _ & H3 & _). exact H3.
  - eapply (generate_to_ends e fuel P n' write endTime T); [|exact B|exact N| |exact G]; lia.
Qed.

Definition mixed : list xop :=
  [XAttachClock 3 50000000; XAttachTrack 1 (plays 0); XGenerate 30; XAttachTrack 2 (plays high); XEnd 7000000; XRead 3;
   XGenerateTo (fun _ _ => 0) 90000000; XDetachTrack 2].
Example C52_ex : clocked false false false mixed /\ has_clock mixed = true /\
  match xruns 9 99 idle 1000 mono mixed with
  | Ok (c, _) => match BKContextGenerateToTime 20 99 idle 1000 (fun _ _ => 0) c 300000000 with
    | Ok (_, r, blocks) => map (map (@length Z)) blocks <> [] /\ r <> 0 | Err _ => False end
  | Err _ => False end.
Proof. split; [unfold mixed; legality|]. split; [reflexivity|]. vm_compute. split; discriminate. Qed.

(** Without a clock it never ends: the time of the context does not advance. *)
Lemma shift_silent p : 1 <= p <= 715827882 -> BKBufferShift BKBufferInit p = BKBufferInit.
Proof.
  intros Hp. unfold BKBufferShift, BKBufferInit. cbn [b_time b_capacity b_accum b_frames b_pulse]. change (u32 (Z.shiftl 0 BK_FINT20_SHIFT)) with 0.
  assert (U : u32 (0 + p) = p) by (rewrite u32_small; lia). rewrite U. replace (p >? 0) with true by lia. reflexivity.
Qed.

Lemma endless n e fuel endTime rate period chs : 0 < endTime <= BK_TIME_MAX -> (0 < chs)%nat -> forall m delta nf k,
  generate_to_loop m n e fuel (fun _ _ => 0) (mk_context rate period 0 delta [] [] (repeat BKBufferInit chs)) endTime nf k = Err EFuel.
Proof.
  intros T C. induction m as [|m IH]; intros delta nf k; cbn [generate_to_loop cx_current]; unfold BKTimeIsLess at 1; replace (0 <? endTime) with true by lia; [reflexivity|].
  assert (E : exists d, BKTimeSub endTime 0 = Ok d).
  { unfold BKTimeSub, chk64, in_s64. rewrite Z.sub_0_r. replace (_ && _)%bool with true; [eauto|]. symmetry. apply andb_true_intro. unfold BK_TIME_MAX in T. split; lia. }
  destruct E as [d E]. pose proof (to_period endTime 0 d (proj2 T) (proj1 T) E) as PR. rewrite E. cbn [bind]. cbv zeta in *.
  set (p := if BKTimeIsLessFUInt20 d (BK_INT_MAX / 3) then BKTimeGetFUInt20 d else BK_INT_MAX / 3) in *. clearbody p.
  unfold BKContextEnd, BKContextRun, run_units. cbn [cx_clocks cx_tracks run_tracks bind x_channels x_tracks x_delta cx_delta cx_channels cx_rate cx_period cx_current map].
  assert (S : map (fun b => BKBufferShift b p) (repeat BKBufferInit chs) = repeat BKBufferInit chs).
  { clear C IH. induction chs as [|j IH]; [reflexivity|]. cbn [repeat map]. rewrite IH. f_equal. apply shift_silent. exact PR. }
  rewrite S. unfold BKContextSize. destruct chs as [|chs]; [lia|]. cbn [cx_channels repeat aget]. unfold aget at 1. cbn [Z.ltb Z.compare orb Z.leb nth_error Z.to_nat].
  cbn. unfold BKTimeIsGreaterEqual. replace (0 >=? endTime) with false by lia. exact (IH _ _ _).
Qed.

Theorem C52_no_clock_refuted : exists c endTime, forall m n fuel, BKContextGenerateToTime m n idle fuel (fun _ _ => 0) c endTime = Err EFuel.
Proof.
  exists mono, 1000. intros m n fuel. unfold BKContextGenerateToTime, mono, BKContextInit. apply endless; [unfold BK_TIME_MAX; lia|].
  vm_compute. lia.
Qed.

(** ** Clocks and audio *)

(** C84: the time of the context is the time of the generated audio plus the time by which it is ahead,
    and generating [size] frames moves it by exactly [size] frames. *)
Lemma ones_time e fuel n c c' l : env_plain e -> ones e fuel n c c' l -> able c ->
  cx_current c' - cx_delta c' = cx_current c - cx_delta c + Z.of_nat n * 1048576.
Proof.
  intros P. induction 1 as [c|n N c c1 c2 l1 l2 C O IH]; intros A; [lia|]. destruct A as [R NT].
  destruct (chunk_ready e fuel c 1 N c1 1 l1 P R NT ltac:(lia) C) as (B1 & _ & _ & _ & B2 & _ & _ & _ & _ & B3).
  rewrite IH; [lia|]. split; [exact B1|]. apply (fst_nil (cx_tracks c)); assumption.
Qed.

Theorem C84_time e fuel m n nc rate period ops c ls m' n' size c' w l :
  env_ok e -> 0 < period -> legal false [] ops -> attached [] ops <> [] ->
  xruns m n e fuel (BKContextInit nc rate period) ops = Ok (c, ls) ->
  0 <= size < 2147483648 -> BKContextGenerate m' n' e fuel c size = Ok (c', w, l) ->
  cx_current c' - cx_delta c' = cx_current c - cx_delta c + size * 1048576 /\ 0 <= cx_delta c' <= 715827882 /\
  Forall (fun k => k_time k = cx_current c' /\ cx_current c' <= k_next k) (cx_clocks c') /\
  Forall (fun it => cx_delta c' <= un_time (tr_unit (snd it))) (cx_tracks c').
Proof.
  intros P Q L A E S G. pose proof (legal_able m n e fuel P nc rate period ops c ls Q L A E) as AB. unfold BKContextGenerate in G.
  apply (generate_ones e fuel P) in G; [|exact AB|lia|lia|lia]. destruct G as [_ O]. destruct (ones_able e fuel P _ _ _ _ O AB) as ([R NT] & _).
  rewrite (ones_time _ _ _ _ _ _ P O AB). rewrite Z2Nat.id by lia. split; [reflexivity|]. split; [apply R|]. split.
  - eapply Forall_impl; [|apply (rd_clocks _ R)]. intros k (K1 & K2 & _). lia.
  - eapply Forall_impl; [|apply (rd_tracks _ R)]. intros it (_ & K). lia.
Qed.

Example C84_ex : match xruns 9 99 idle 1000 quick [XAttachTrack 1 (plays high); XGenerate 30; XGenerate 25] with
  | Ok (c, _) => cx_current c - cx_delta c = 55 * 1048576 /\ cx_delta c <> 0
  | Err _ => False end.
Proof. vm_compute. split; [reflexivity|discriminate]. Qed.

(** C83: generating frames ends for every history, even without a clock. *)
Theorem C83_generate_terminates_partial e fuel m n nc rate period ops c ls :
  env_ok e -> 0 < period -> clocked false false false ops ->
  xruns m n e fuel (BKContextInit nc rate period) ops = Ok (c, ls) ->
  forall m' n' size x, 0 <= size < 4294967296 -> size < Z.of_nat m' -> 1073741824 < Z.of_nat n' ->
  BKContextGenerate m' n' e fuel c size = Err x -> blamed e fuel c x.
Proof.
  intros P Q L E m' n' size x S M N G. destruct (clocked_runs e fuel P m n _ _ _ _ _ _ _ (init_tinv nc rate period Q) L E) as [B _].
  eapply (generate_ends e fuel P m' n' c size 0); [exact B| | | |exact G]; lia.
Qed.

Example C83_ex : clocked false false false (XGenerate 5000 :: mixed).
Proof. unfold mixed. legality. Qed.

(** A clock attached while the clocks run can stop the context for ever: the time of its first tick
    is before the time of the context, the step to it is negative, and after it the clocks never
    advance. *)
Definition late : list xop := [XAttachTrack 1 (plays high); XGenerate 5; XAttachClock 7 18874368].
Lemma stuck e fuel n c time endTime : time < endTime -> 0 <= time < 4294967296 -> BKClocksAdvance e fuel c = Ok (c, 0) -> run_units fuel c time = Ok c ->
  run_loop n e fuel c time endTime = Err EFuel.
Proof.
  intros L B A R. induction n as [|n IH]; cbn [run_loop]; replace (time <? endTime) with true by lia; [reflexivity|].
  rewrite A. cbn [bind]. rewrite Z.add_0_r, (u32_small time) by lia. rewrite R. cbn [bind]. exact IH.
Qed.
Theorem C83_late_clock_refuted : exists c ls, xruns 9 99 idle 1000 quick late = Ok (c, ls) /\
  forall m n, BKContextGenerate m n idle 1000 c 20 = Err EFuel.
Proof.
  destruct (computed (xruns 9 99 idle 1000 quick late) (fun r => match cx_clocks (fst r) with [] => False | _ => True end /\ cx_delta (fst r) = 15728640 /\
    match BKClocksAdvance idle 1000 (fst r) with
    | Ok (c1, q) => u32 (15728640 + q) = 13631488 /\ match run_units 1000 c1 13631488 with
      | Ok c2 => BKClocksAdvance idle 1000 c2 = Ok (c2, 0) /\ run_units 1000 c2 13631488 = Ok c2 | Err _ => False end
    | Err _ => False end)) as ([c ls] & E & H); [vm_compute; repeat split|]. cbn [fst] in H.
  exists c, ls. split; [exact E|]. clear E. intros m n. destruct H as (K & D & H). unfold BKContextGenerate. destruct m as [|m]; [reflexivity|]. cbn [generate_loop].
  unfold BKContextEnd, BKContextRun. destruct (cx_clocks c) as [|k ks]; [tauto|]. rewrite D.
  change (u32 (Z.shiftl (if 20 >? BK_MAX_GENERATE_SAMPLES then BK_MAX_GENERATE_SAMPLES else 20) BK_FINT20_SHIFT)) with 20971520.
  destruct (BKClocksAdvance idle 1000 c) as [[c1 q]|?] eqn:A; [|tauto]. destruct H as (Q & H). destruct (run_units 1000 c1 13631488) as [c2|?] eqn:R; [|tauto]. destruct H as (A2 & R2).
  destruct n as [|n]; cbn [run_loop]; change (15728640 <? 20971520) with true; cbv iota; [reflexivity|]. rewrite A. cbn [bind]. rewrite Q, R. cbn [bind].
  rewrite (stuck idle 1000 n c2 13631488 20971520) by (assumption || lia). reflexivity.
Qed.

(** ** Generating to a time *)

(** C80: the audio is not the one of [BKContextGenerate]. *)
Definition duo : list xop := [XAttachTrack 1 (plays 12582912); XAttachTrack 2 (plays 75497472)].
Lemma duo_legal : legal false [] duo.
Proof.
  assert (track_free (plays 12582912)) by (vm_compute; repeat split; congruence || discriminate).
  assert (track_free (plays 75497472)) by (vm_compute; repeat split; congruence || discriminate).
  cbn [legal duo filter]. repeat (split; [first [assumption|apply proj1; assumption|reflexivity]|]). exact I.
Qed.
Definition by_time : list xop := duo ++ [XGenerateTo (fun _ _ => 0) (10 * 1048576)].
Definition by_frames : list xop := duo ++ [XGenerate 42].
Theorem C80_to_time_audio_refuted : exists cA cB lsA lsB i,
  legal false [] duo /\ xruns 9 99 idle 1000 quick by_time = Ok (cA, lsA) /\ xruns 9 99 idle 1000 quick by_frames = Ok (cB, lsB) /\
  map (map (@length Z)) lsA = map (map (@length Z)) lsB /\ nth i (nth 0 (nth 2 lsA []) []) 0 <> nth i (nth 0 (nth 2 lsB []) []) 0.
Proof.
  destruct (computed (xruns 9 99 idle 1000 quick by_time) (fun r => map (map (@length Z)) (snd r) = [[]; []; [42]]%nat /\ nth 41 (nth 0 (nth 2 (snd r) []) []) 0 = -650))
    as ([cA lsA] & EA & A1 & A2); [vm_compute; split; reflexivity|].
  destruct (computed (xruns 9 99 idle 1000 quick by_frames) (fun r => map (map (@length Z)) (snd r) = [[]; []; [42]]%nat /\ nth 41 (nth 0 (nth 2 (snd r) []) []) 0 = 32766))
    as ([cB lsB] & EB & B1 & B2); [vm_compute; split; reflexivity|].
  exists cA, cB, lsA, lsB, 41%nat. split; [exact duo_legal|]. split; [exact EA|]. split; [exact EB|]. cbn [snd] in *. split; [congruence|]. rewrite A2, B2. discriminate.
Qed.

(** C81: the value returned is the number of frames passed to [write] ... *)
Definition frames_of (block : list (list Z)) : Z := match rev block with s :: _ => Z.of_nat (length s) | [] => BK_MAX_GENERATE_SAMPLES end.

Lemma read_count : forall chs size chs' n l, read_channels chs size = Ok (chs', n, l) -> n = match rev l with s :: _ => Z.of_nat (length s) | [] => size end.
Proof.
  induction chs as [|b chs IH]; intros size chs' n l E; cbn [read_channels] in E; [inversion E; reflexivity|].
  binv E r E1. destruct r as [b1 s]. binv E r E2. destruct r as [[chs1 n1] l1]. inversion E; subst. rewrite (IH _ _ _ _ E2). cbn [rev].
  destruct (rev l1); reflexivity.
Qed.

Lemma to_time_count m n e fuel T : forall c nf k c' r ls, generate_to_loop m n e fuel (fun _ _ => 0) c T nf k = Ok (c', r, ls) ->
  r = nf + fold_right Z.add 0 (map frames_of ls).
Proof.
  induction m as [|m IH]; intros c nf k c' r ls E; cbn [generate_to_loop] in E; destruct (BKTimeIsLess _ _); try (inversion E; subst; cbn; lia).
  binv E d E0. cbv zeta in E. binv E c1 E1. binv E sz E2. destruct (_ || _).
  - binv E x E3. destruct x as [[c2 n2] l2]. binv E nf2 E4. change (negb (0 =? 0)) with false in E. cbn iota in E. binv E x E5. destruct x as [[c3 r3] ls3]. inversion E; subst.
    rewrite (IH _ _ _ _ _ _ E5). unfold chk32 in E4. destruct (in_s32 _); [|discriminate]. assert (nf2 = nf + n2) as -> by congruence.
    unfold BKContextRead in E3. binv E3 x E6. destruct x as [[chs n3] l3]. inversion E3; subst. apply read_count in E6. cbn [map fold_right]. unfold frames_of at 2. rewrite <- E6. lia.
  - rewrite (IH _ _ _ _ _ _ E). reflexivity.
Qed.

Theorem C81_to_time_returns_partial m n e fuel c T c' r blocks : BKContextGenerateToTime m n e fuel (fun _ _ => 0) c T = Ok (c', r, blocks) ->
  r = fold_right Z.add 0 (map frames_of blocks).
Proof. intros E. unfold BKContextGenerateToTime in E. rewrite (to_time_count _ _ _ _ _ _ _ _ _ _ _ E). reflexivity. Qed.

Lemma solo : exists c ls, xruns 9 99 idle 1000 mono [XAttachTrack 1 (plays 0)] = Ok (c, ls) /\
  (exists c' ls', BKContextGenerateToTime 9 99 idle 1000 (fun _ _ => 0) c (100 * 1048576) = Ok (c', 252, ls')) /\
  (exists c' ls', BKContextGenerateToTime 9 99 idle 1000 (fun _ _ => 0) c (1100 * 1048576) = Ok (c', 1024, ls')).
Proof.
  destruct (computed (xruns 9 99 idle 1000 mono [XAttachTrack 1 (plays 0)]) (fun r =>
    match BKContextGenerateToTime 9 99 idle 1000 (fun _ _ => 0) (fst r) (100 * 1048576) with Ok (_, k, _) => k = 252 | Err _ => False end /\
    match BKContextGenerateToTime 9 99 idle 1000 (fun _ _ => 0) (fst r) (1100 * 1048576) with Ok (_, k, _) => k = 1024 | Err _ => False end))
    as ([c ls] & E & H1 & H2); [vm_compute; split; reflexivity|]. exists c, ls. split; [exact E|]. cbn [fst] in *. split.
  - destruct (BKContextGenerateToTime 9 99 idle 1000 (fun _ _ => 0) c (100 * 1048576)) as [[[c1 k] l1]|]; [subst k; eauto|destruct H1].
  - destruct (BKContextGenerateToTime 9 99 idle 1000 (fun _ _ => 0) c (1100 * 1048576)) as [[[c1 k] l1]|]; [subst k; eauto|destruct H2].
Qed.

(** ... but it is not the number of frames up to this time: there can be more or less. *)
Theorem C81_to_time_frames_refuted : exists c ls c1 r1 b1 c2 r2 b2,
  legal false [] [XAttachTrack 1 (plays 0)] /\ xruns 9 99 idle 1000 mono [XAttachTrack 1 (plays 0)] = Ok (c, ls) /\
  BKContextGenerateToTime 9 99 idle 1000 (fun _ _ => 0) c (100 * 1048576) = Ok (c1, r1, b1) /\ r1 > 100 /\
  BKContextGenerateToTime 9 99 idle 1000 (fun _ _ => 0) c (1100 * 1048576) = Ok (c2, r2, b2) /\ r2 < 1100.
Proof.
  destruct solo as (c & ls & E & (c1 & b1 & E1) & (c2 & b2 & E2)). exists c, ls, c1, 252, b1, c2, 1024, b2.
  split; [legality|]. split; [exact E|]. split; [exact E1|]. split; [lia|]. split; [exact E2|]. lia.
Qed.

(** ** Resetting a track *)

(** C82: a track which is reset while it is attached can be silent for hundreds of frames, though it
    gets the same settings and note as before; after [BKTrackClear] instead it plays. *)
Definition again (o : top) : list xop :=
  XAttachTrack 1 (plays 0) :: XGenerate 100 :: map (XTrack 1) (o :: OAttr BK_WAVEFORM BK_SQUARE :: settings 0) ++ [XGenerate 10; XGenerate 500].
Definition sounds (l : list (list Z)) : bool := existsb (existsb (fun v => negb (v =? 0))) l.
Theorem C82_track_reset_refuted : exists c1 ls1 c2 ls2,
  xruns 9 99 idle 1000 mono (again OReset) = Ok (c1, ls1) /\ sounds (nth 9 ls1 []) = false /\
  xruns 9 99 idle 1000 mono (again OClear) = Ok (c2, ls2) /\ sounds (nth 9 ls2 []) = true.
Proof.
  destruct (computed (xruns 9 99 idle 1000 mono (again OReset)) (fun r => sounds (nth 9 (snd r) []) = false)) as ([c1 ls1] & E1 & H1); [vm_compute; reflexivity|].
  destruct (computed (xruns 9 99 idle 1000 mono (again OClear)) (fun r => sounds (nth 9 (snd r) []) = true)) as ([c2 ls2] & E2 & H2); [vm_compute; reflexivity|].
  exists c1, ls1, c2, ls2. auto.
Qed.

Print Assumptions C50_generate_exact_partial.
Print Assumptions C50_history_sizes_partial.
Print Assumptions C50_early_refuted.
Print Assumptions C50_gap_refuted.
Print Assumptions C51_generate_split_partial.
Print Assumptions C51_gap_refuted.
Print Assumptions C52_to_time_terminates_partial.
Print Assumptions C52_no_clock_refuted.
Print Assumptions C53_channels_together.
Print Assumptions C80_to_time_audio_refuted.
Print Assumptions C81_to_time_returns_partial.
Print Assumptions C81_to_time_frames_refuted.
Print Assumptions C82_track_reset_refuted.
Print Assumptions C83_generate_terminates_partial.
Print Assumptions C83_late_clock_refuted.
Print Assumptions C84_time.
