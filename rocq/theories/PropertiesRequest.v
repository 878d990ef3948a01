(** C106: a program sounds the same however its frames are asked for. *)
From Verif Require Import CInt CIntFacts TimeModel Kernels BufferModel BufferSpec BufferProofs BufferProofs2 DataModel UnitModel UnitSpec TrackModel TrackSpec MixSpec MixProofs
  ContextModel ContextSame ContextSpec ContextHist PropertiesBuffer PropertiesContext PropertiesMix SafeSpec SafeRun SafeProofs PropertiesSafe RequestSpec RequestProofs.
From Verif Require Import TrackQuiet.
Ltac Zify.zify_post_hook ::= idtac.

(** Two programs which make the same calls after the same numbers of frames give the same frames
    and end in the same state: sizes of calls to [BKContextGenerate] do not matter, also not
    sizes of 0. *)
Theorem C106_requests e fuel m n m' n' nc rate period ops ops' c ls c' ls' :
  env_ok e -> 0 < period -> legal false [] ops -> legal false [] ops' -> script ops = script ops' ->
  xruns m n e fuel (BKContextInit nc rate period) ops = Ok (c, ls) ->
  xruns m' n' e fuel (BKContextInit nc rate period) ops' = Ok (c', ls') ->
  c = c' /\ forall k, heard k ls = heard k ls'.
Proof.
  intros P Q L L' S E E'. pose proof (init_inv nc rate period Q) as I.
  destruct (runs_steps e fuel P m n ops _ _ _ _ _ I L E) as (fs & A & H). destruct (runs_steps e fuel P m' n' ops' _ _ _ _ _ I L' E') as (fs' & A' & H').
  rewrite <- S in A'. destruct (steps_det e fuel _ _ _ _ _ _ A A') as [-> ->]. split; [reflexivity|]. intros k. rewrite H, H'. reflexivity.
Qed.

(** Programs as in C100 do not fail; so nothing has to be known about their runs. *)
Lemma calm_legal fuel vol limit : forall ops started ids used frames, calm fuel vol limit started ids used frames ops -> legal started ids ops.
Proof.
  induction ops as [|o ops IH]; intros started ids used frames C; [exact I|]. destruct o; cbn [calm] in C; cbn [legal]; try contradiction.
  - destruct C as (C1 & C2 & C3 & C). split; [exact C1|]. split; [exact C2|]. split; [lia|]. eapply IH, C.
  - destruct C as (C1 & C2 & C3 & C). split; [|eapply IH, C]. destruct (made_calm fuel (vol id) t C1 C2) as (K1 & K2 & _). destruct (tk_unit _ _ K1) as ((W & _) & _).
    split; [exact K2|]. split; [apply (wf_period _ W)|apply (wf_frac _ W)].
  - eapply IH, C.
  - destruct C as (C1 & C). split; [|eapply IH, C]. apply (call_plain fuel 0 vol _ _ C1).
  - destruct C as (C1 & C). eapply IH, C.
  - destruct C as (C1 & C2 & C). split; [exact C1|]. eapply IH, C.
  - eapply IH, C.
Qed.

Theorem C106_always ch rate period fuel vol e m n m' n' ops ops' :
  0 < period <= MAX_CLOCK -> env_calm fuel vol e -> calm fuel vol 16383 false [] 0 0 ops -> calm fuel vol 16383 false [] 0 0 ops' -> script ops = script ops' ->
  1789570706 <= Z.of_nat fuel -> 4194304 <= Z.of_nat m -> 1073741824 < Z.of_nat n -> 4194304 <= Z.of_nat m' -> 1073741824 < Z.of_nat n' ->
  exists c ls ls', xruns m n e fuel (BKContextInit ch rate period) ops = Ok (c, ls) /\ xruns m' n' e fuel (BKContextInit ch rate period) ops' = Ok (c, ls') /\
    forall k, heard k ls = heard k ls'.
Proof.
  intros Q EC C C' S F M N M' N'. destruct (C100_harmonic ch rate period fuel vol e m n ops Q EC C F M N) as (c & ls & E & _).
  destruct (C100_harmonic ch rate period fuel vol e m' n' ops' Q EC C' F M' N') as (c' & ls' & E' & _).
  assert (P : env_ok e). { intros i k t. destruct (EC i k t) as [A B]. split; [|exact B]. eapply Forall_impl; [|exact A]. intros x H. apply (call_plain fuel 0 vol _ _ H). }
  destruct (C106_requests e fuel m n m' n' ch rate period ops ops' c ls c' ls' P (proj1 Q) (calm_legal _ _ _ _ _ _ _ _ C) (calm_legal _ _ _ _ _ _ _ _ C') S E E') as [<- H].
  exists c, ls, ls'. auto.
Qed.

(** The history of C50 in other pieces. *)
Definition pieces : list xop :=
  [XAttachClock 7 20000000; XAttachTrack 1 (plays high); XGenerate 7; XGenerate 0; XGenerate 23; XTrack 1 (OAttr BK_NOTE 12582912); XPeriod 30000000;
   XAttachTrack 2 (plays 0); XGenerate 69; XGenerate 1; XDetachTrack 1; XKernel (Some BKBufferStepPhasesSinc); XGenerate 4; XGenerate 6; XReset;
   XAttachTrack 3 (plays high); XGenerate 19; XGenerate 1].
Lemma pieces_legal : legal false [] pieces.
Proof. unfold pieces. legality. Qed.
Example C106_example : exists c ls ls', xruns 9 99 fading 1000 stereo history = Ok (c, ls) /\ xruns 9 99 fading 1000 stereo pieces = Ok (c, ls') /\
  (forall k, heard k ls = heard k ls') /\ length (heard 1 ls) = 130%nat /\ map (@length _) ls <> map (@length _) ls'.
Proof.
  destruct (computed (xruns 9 99 fading 1000 stereo history) (fun r => length (heard 1 (snd r)) = 130%nat /\ length (snd r) = 13%nat)) as ([c ls] & E & H1 & H2); [vm_compute; auto|].
  destruct (computed (xruns 9 99 fading 1000 stereo pieces) (fun r => length (snd r) = 18%nat)) as ([c' ls'] & E' & H3); [vm_compute; auto|]. cbn [snd] in *.
  destruct (C106_requests fading 1000 9 99 9 99 2 44100 192675840 history pieces c ls c' ls' fading_ok ltac:(lia) (proj1 history_legal) pieces_legal eq_refl E E') as [<- H].
  exists c, ls, ls'. split; [exact E|]. split; [exact E'|]. split; [exact H|]. split; [exact H1|]. intros X. apply (f_equal (@length _)) in X. rewrite !map_length in X. congruence.
Qed.

(** The program of C100 in other pieces. *)
Definition ex_pieces (t1 t2 : track) : list xop :=
  [XAttachClock 7 20000000; XAttachTrack 1 t1; XGenerate 1000; XGenerate 2000; XTrack 1 (OAttr BK_VOLUME 16000); XPeriod 30000000; XAttachTrack 2 t2; XGenerate 1; XGenerate 69999;
   XDetachTrack 1; XGenerate 10; XReset; XGenerate 0; XGenerate 20].
Lemma pieces_script t1 t2 : script (ex_program t1 t2) = script (ex_pieces t1 t2).
Proof.
  unfold ex_program, ex_pieces. cbn [script].
  change (u32 3000) with (1000 + 2000). change (u32 70000) with (1 + 69999). change (u32 1000) with 1000. change (u32 2000) with 2000. change (u32 1) with 1. change (u32 69999) with 69999. change (u32 10) with 10. change (u32 20) with 20. change (u32 0) with 0.
  rewrite (Z2Nat.inj_add 1000 2000), (Z2Nat.inj_add 1 69999) by lia. rewrite !repeat_app, <- !app_assoc.
  replace (repeat (@None xop) (Z.to_nat 0)) with (@nil (option xop)) by reflexivity. cbn [app]. reflexivity.
Qed.
Example C106_always_example fuel : 1789570706 <= Z.of_nat fuel -> exists t1 t2,
  calm fuel (fun _ => 8000) 16383 false [] 0 0 (ex_program t1 t2) /\ calm fuel (fun _ => 8000) 16383 false [] 0 0 (ex_pieces t1 t2) /\ script (ex_program t1 t2) = script (ex_pieces t1 t2).
Proof.
  intros F. destruct (C100_example fuel F) as (_ & a & t1 & l1 & b & t2 & l2 & _ & _ & _ & _ & C). exists t1, t2. split; [exact C|]. split; [|apply pieces_script].
  cbn [calm ex_program ex_pieces app filter Z.eqb Pos.eqb negb map fold_right] in C |- *.
  change (u32 3000) with 3000 in *. change (u32 70000) with 70000 in *. change (u32 10) with 10 in *. change (u32 20) with 20 in *. change (u32 0) with 0. change (u32 1000) with 1000. change (u32 2000) with 2000. change (u32 1) with 1. change (u32 69999) with 69999.
  change MAX_CLOCK with 2305843009213693952 in *. change MAX_FRAMES with 1099511627776 in *.
  destruct C as (_ & _ & C3 & _ & M1 & _ & _ & _ & T & C4 & _ & M2 & _). 
  split; [reflexivity|]. split; [lia|]. split; [exact C3|]. split; [lia|]. split; [exact M1|]. split; [lia|]. split; [discriminate|]. split; [lia|]. split; [discriminate|]. split; [lia|].
  split; [exact T|]. split; [exact C4|]. split; [lia|]. split; [exact M2|]. split; [lia|]. split; [discriminate|]. split; [lia|]. split; [discriminate|]. split; [lia|]. split; [discriminate|]. split; [lia|]. split; [discriminate|]. split; [lia|]. split; [discriminate|]. split; [lia|]. exact I.
Qed.

Print Assumptions C106_requests.
Print Assumptions C106_always.
Print Assumptions C106_always_example.
