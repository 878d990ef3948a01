(** Properties of some of the tracks of a program: C102, C103. *)
From Verif Require Import CInt CIntFacts TimeModel Kernels BufferModel BufferSpec BufferProofs DataModel UnitModel ToneModel TrackModel TrackSpec TrackTime UnitShift
  PropertiesTrack ContextModel ContextSpec ContextSame ContextShift ContextRun ContextChunk ContextGen ContextGen2 ContextHist ContextTime PropertiesContext SoloSpec SoloProofs.
Ltac Zify.zify_post_hook ::= idtac.

(** ** C102: tracks do not disturb each other *)

(** Leaving out all calls on the other tracks does not change a track: at the end of the program
    it is in the same state, whatever the other tracks have played. *)
Theorem C102_tracks keep e fuel m n m' n' nc rate period ops c ls c' ls' : env_ok e -> 0 < period -> legal false [] ops -> legal false [] (only keep ops) ->
  xruns m n e fuel (BKContextInit nc rate period) ops = Ok (c, ls) ->
  xruns m' n' (only_env keep e) fuel (BKContextInit nc rate period) (only keep ops) = Ok (c', ls') ->
  cx_tracks c' = part keep (cx_tracks c) /\ cx_current c' = cx_current c /\ cx_period c' = cx_period c /\
  (cx_tracks c' <> [] -> cx_clocks c' = cx_clocks c).
Proof.
  intros P Q L L' E E'. pose proof (init_inv nc rate period Q) as I.
  pose proof (solo_runs keep e fuel (proj1 (env_ok_plain e) P) m n m' n' ops _ _ _ _ _ _ _ _ _ _ I L I L' (init_solo keep nc rate period) E E') as S.
  split; [apply S|]. split; [apply S|]. split; [apply S|]. intros N. apply (solo_lone _ _ _ S N).
Qed.

(** ** C103: the audio of a program is the sum of the audio of its tracks *)

(** Playing two groups of tracks together gives the sum of what both give alone. Samples which are
    not limited differ from it by at most 1 downwards and 2 upwards, at any time of the program:
    the rounding of the filter does not accumulate. *)
Theorem C103_superposition keep e fuel m n m1 n1 m2 n2 nc rate period ops c ls c1 ls1 c2 ls2 : env_ok e -> 0 < period -> legal false [] ops ->
  legal false [] (only keep ops) -> legal false [] (only (fun id => negb (keep id)) ops) ->
  xruns m n e fuel (BKContextInit nc rate period) ops = Ok (c, ls) ->
  xruns m1 n1 (only_env keep e) fuel (BKContextInit nc rate period) (only keep ops) = Ok (c1, ls1) ->
  xruns m2 n2 (only_env (fun id => negb (keep id)) e) fuel (BKContextInit nc rate period) (only (fun id => negb (keep id)) ops) = Ok (c2, ls2) ->
  Forall3 (Forall3 sums) (audio ls) (audio ls1) (audio ls2).
Proof.
  intros P Q L L1 L2 E E1 E2. pose proof (init_inv nc rate period Q) as I.
  exact (sum_runs keep e fuel (proj1 (env_ok_plain e) P) m n m1 n1 m2 n2 ops _ _ _ _ _ _ _ _ _ _ _ _ _ _ _ I L I L1 I L2 (init_solo keep nc rate period) (init_solo _ nc rate period) (init_adds nc rate period) E E1 E2).
Qed.

(** Two tracks; the callback of the master clock changes the volume of the first one. *)
Definition soft (note : Z) : track := track_after BK_SQUARE
  [OAttr BK_MASTER_VOLUME 32767; OAttr BK_VOLUME 8000; OAttr BK_DUTY_CYCLE 4; OAttr BK_NOTE note].
Definition sinking : env := mk_env (fun _ _ _ => 0) (fun id n _ => if id =? 0 then [(1, OAttr BK_VOLUME (9000 - 500 * n))] else []).
Definition both : list xop :=
  [XAttachTrack 2 (soft 75497472); XAttachClock 7 20000000; XAttachTrack 1 (soft 82837504); XGenerate 21; XTrack 1 (OAttr BK_NOTE 79691776); XPeriod 30000000; XGenerate 5].
Definition first (id : Z) : bool := id =? 1.
Definition second (id : Z) : bool := negb (first id).
Lemma sinking_ok : env_ok sinking.
Proof. intros id n t. split; [|cbn; unfold BK_TIME_MAX; lia]. cbn. destruct (id =? 0); repeat constructor. Qed.
Lemma soft_low_free : track_free (soft 75497472).
Proof. vm_compute. repeat split; congruence || discriminate. Qed.
Lemma soft_high_free : track_free (soft 82837504).
Proof. vm_compute. repeat split; congruence || discriminate. Qed.
Lemma both_legal : legal false [] both /\ legal false [] (only first both) /\ legal false [] (only second both).
Proof.
  unfold both, only. cbn [filter concerns first second negb Z.eqb Pos.eqb]. cbn [legal app].
  repeat match goal with
  | |- _ /\ _ => split
  | |- track_free (soft 75497472) => exact soft_low_free
  | |- track_free (soft 82837504) => exact soft_high_free
  | |- True => exact I
  | |- _ <> [] => discriminate
  | |- _ = _ => reflexivity
  | |- _ < _ => lia
  | |- _ <> _ => lia
  end.
Qed.

(** Everything about the three runs which the examples need, by computation. *)
Definition at_frame (j : nat) (ls : list (list (list Z))) : Z := nth j (nth 0 (audio ls) []) 0.
Lemma both_runs :
  match xruns 9 99 sinking 1000 quick both, xruns 9 99 (only_env first sinking) 1000 quick (only first both), xruns 9 99 (only_env second sinking) 1000 quick (only second both) with
  | Ok (c, ls), Ok (c1, ls1), Ok (c2, ls2) =>
      (length (cx_tracks c), length (cx_tracks c1), map (@length Z) (audio ls)) = (2%nat, 1%nat, [26%nat]) /\
      (at_frame 23 ls, at_frame 23 ls1, at_frame 23 ls2) = (17319, 588, 16731) /\ at_frame 20 ls = 32767
  | _, _, _ => False
  end.
Proof. vm_compute. auto. Qed.

Example C102_example : exists c ls c' ls', env_ok sinking /\ legal false [] both /\ legal false [] (only first both) /\
  xruns 9 99 sinking 1000 quick both = Ok (c, ls) /\ xruns 9 99 (only_env first sinking) 1000 quick (only first both) = Ok (c', ls') /\
  length (cx_tracks c) = 2%nat /\ length (cx_tracks c') = 1%nat.
Proof.
  pose proof both_runs as R. destruct (xruns 9 99 sinking 1000 quick both) as [[c ls]|]; [|destruct R].
  destruct (xruns 9 99 (only_env first sinking) 1000 quick (only first both)) as [[c1 ls1]|]; [|destruct R].
  destruct (xruns 9 99 (only_env second sinking) 1000 quick (only second both)) as [[c2 ls2]|]; [|destruct R].
  destruct R as (R & _). destruct both_legal as (L1 & L2 & _). exists c, ls, c1, ls1. split; [exact sinking_ok|]. split; [exact L1|]. split; [exact L2|]. split; [reflexivity|]. split; [reflexivity|]. split; congruence.
Qed.
(** The frame shown is the sum; frame 20 is limited to 32767. *)
Example C103_example : exists c ls c1 ls1 c2 ls2, legal false [] (only second both) /\
  xruns 9 99 sinking 1000 quick both = Ok (c, ls) /\ xruns 9 99 (only_env first sinking) 1000 quick (only first both) = Ok (c1, ls1) /\
  xruns 9 99 (only_env second sinking) 1000 quick (only second both) = Ok (c2, ls2) /\
  map (@length Z) (audio ls) = [26%nat] /\ (at_frame 23 ls, at_frame 23 ls1, at_frame 23 ls2) = (17319, 588, 16731) /\ at_frame 20 ls = 32767.
Proof.
  pose proof both_runs as R. destruct (xruns 9 99 sinking 1000 quick both) as [[c ls]|]; [|destruct R].
  destruct (xruns 9 99 (only_env first sinking) 1000 quick (only first both)) as [[c1 ls1]|]; [|destruct R].
  destruct (xruns 9 99 (only_env second sinking) 1000 quick (only second both)) as [[c2 ls2]|]; [|destruct R].
  destruct R as (R1 & R2 & R3). destruct both_legal as (_ & _ & L). exists c, ls, c1, ls1, c2, ls2. split; [exact L|]. split; [reflexivity|]. split; [reflexivity|]. split; [reflexivity|].
  split; [congruence|]. split; [exact R2|exact R3].
Qed.

Print Assumptions C102_tracks.
Print Assumptions C103_superposition.
