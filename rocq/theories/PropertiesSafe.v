(** Programs which never go wrong: C100. *)
From Verif Require Import CInt CIntFacts TimeModel Kernels BufferModel BufferSpec BufferProofs BufferProofs2 DataModel UnitModel UnitSpec TrackModel TrackSpec MixSpec MixProofs
  ContextModel ContextSpec ContextHist PropertiesBuffer PropertiesMix SafeSpec SafeProofs.
Ltac Zify.zify_post_hook ::= idtac.

Lemma channels_range ch : 1 <= BKClamp (u32 ch) 1 BK_MAX_CHANNELS <= 8.
Proof. unfold BKClamp, BK_MAX_CHANNELS. generalize (u32 ch). intros z. destruct (Z.ltb_spec z 1); [lia|]. destruct (Z.gtb_spec z 8); lia. Qed.

(** Any kernel whose rows have the same sum [gain]. *)
Theorem C100_any_kernel K gain limit ch rate period fuel vol e m n ops :
  kernel_ok K -> (forall row, In row K -> zsum row = gain) -> 0 <= limit <= 16383 ->
  0 <= cell_gain K -> 0 <= sum_gain K gain -> 2 * limit * cell_gain K <= 2147483647 -> 2 * limit * sum_gain K gain <= 2147483647 ->
  0 < period <= MAX_CLOCK -> env_calm fuel vol e -> calm fuel vol limit false [] 0 0 ops ->
  1789570706 <= Z.of_nat fuel -> 4194304 <= Z.of_nat m -> 1073741824 < Z.of_nat n ->
  exists c ls, xruns m n e fuel (set_pulse_kernel (BKContextInit ch rate period) (Some K)) ops = Ok (c, ls) /\
    Forall2 (yields (BKClamp (u32 ch) 1 BK_MAX_CHANNELS)) ops ls.
Proof.
  intros HK HG L G1 G2 L1 L2 P EC C HF HM HN. pose proof (channels_range ch) as NC.
  eapply (calm_runs K gain HK HG limit (conj G1 G2) (conj (proj2 L) (conj L1 L2)) fuel _ NC vol e EC HF m n HM HN); [|split; [apply Z.le_refl|unfold MAX_FRAMES; lia]|exact C].
  apply (start_tune K gain HK limit (conj G1 G2) (conj (proj2 L) (conj L1 L2)) fuel _ NC vol e EC m n); [exact P|apply L|reflexivity].
Qed.

(** A new context: no program with calm calls overflows, reads or writes out of bounds, divides by
    zero or loops forever, if the volumes of all tracks together are at most half of the maximum. *)
Theorem C100_harmonic ch rate period fuel vol e m n ops :
  0 < period <= MAX_CLOCK -> env_calm fuel vol e -> calm fuel vol 16383 false [] 0 0 ops ->
  1789570706 <= Z.of_nat fuel -> 4194304 <= Z.of_nat m -> 1073741824 < Z.of_nat n ->
  exists c ls, xruns m n e fuel (BKContextInit ch rate period) ops = Ok (c, ls) /\ Forall2 (yields (BKClamp (u32 ch) 1 BK_MAX_CHANNELS)) ops ls.
Proof.
  intros P EC C HF HM HN. destruct harm_gains as [G1 G2].
  replace (BKContextInit ch rate period) with (set_pulse_kernel (BKContextInit ch rate period) (Some BKBufferStepPhasesHarm)).
  - apply (C100_any_kernel BKBufferStepPhasesHarm 32767 16383 ch rate period fuel vol e m n ops kernel_ok_harm); rewrite ?G1, ?G2; try assumption; try lia.
    intros row R. apply (C06_kernel_gain BKBufferStepPhasesHarm); auto.
  - unfold set_pulse_kernel, BKContextInit, x_channels. cbn [cx_rate cx_period cx_current cx_delta cx_clocks cx_tracks cx_channels]. f_equal. generalize (Z.to_nat (BKClamp (u32 ch) 1 BK_MAX_CHANNELS)). intros z. induction z as [|z IH]; cbn [repeat map]; [reflexivity|]. rewrite IH. reflexivity.
Qed.

(** The other kernel of the library. *)
Theorem C100_sinc ch rate period fuel vol e m n ops :
  0 < period <= MAX_CLOCK -> env_calm fuel vol e -> calm fuel vol 13669 false [] 0 0 ops ->
  1789570706 <= Z.of_nat fuel -> 4194304 <= Z.of_nat m -> 1073741824 < Z.of_nat n ->
  exists c ls, xruns m n e fuel (set_pulse_kernel (BKContextInit ch rate period) (Some BKBufferStepPhasesSinc)) ops = Ok (c, ls) /\
    Forall2 (yields (BKClamp (u32 ch) 1 BK_MAX_CHANNELS)) ops ls.
Proof.
  intros P EC C HF HM HN. destruct sinc_gains as [G1 G2].
  apply (C100_any_kernel BKBufferStepPhasesSinc 32767 13669 ch rate period fuel vol e m n ops kernel_ok_sinc); rewrite ?G1, ?G2; try assumption; try lia.
  intros row R. apply (C06_kernel_gain BKBufferStepPhasesSinc); auto.
Qed.

(** Tracks for such programs can be made: calm calls after the initialisation do not fail. *)
Theorem C100_tracks fuel vol w calls : 0 <= vol -> waveform_phases (s32 w) <> None -> Forall (calm_call fuel vol) calls ->
  exists t0 t ls, BKTrackInit fuel w = Ok t0 /\ truns fuel t0 calls = Ok (t, ls) /\ made fuel vol t.
Proof.
  intros V W F. destruct (made_exists fuel vol w calls V W F) as (t0 & t & ls & E & R). exists t0, t, ls. split; [exact E|]. split; [exact R|]. exists w, t0, calls, ls. auto.
Qed.

(** A square wave and noise; a callback which changes the note of the first one; calls while frames
    are generated; a reset. *)
Definition ex_calls : list top := [OAttr BK_MASTER_VOLUME 8000; OAttr BK_VOLUME 32767; OAttr BK_DUTY_CYCLE 4; OAttr BK_NOTE 12582912].
Definition ex_env : env := mk_env (fun _ _ _ => 0) (fun id n _ => if id =? 0 then [(1, OAttr BK_NOTE (1048576 * (n mod 90)))] else []).
Definition ex_program (t1 t2 : track) : list xop :=
  [XAttachClock 7 20000000; XAttachTrack 1 t1; XGenerate 3000; XTrack 1 (OAttr BK_VOLUME 16000); XPeriod 30000000; XAttachTrack 2 t2; XGenerate 70000;
   XDetachTrack 1; XGenerate 10; XReset; XGenerate 20].

Example C100_example fuel : 1789570706 <= Z.of_nat fuel -> env_calm fuel (fun _ => 8000) ex_env /\
  exists a t1 l1 b t2 l2, BKTrackInit fuel BK_SQUARE = Ok a /\ truns fuel a ex_calls = Ok (t1, l1) /\ BKTrackInit fuel BK_NOISE = Ok b /\ truns fuel b ex_calls = Ok (t2, l2) /\
  calm fuel (fun _ => 8000) 16383 false [] 0 0 (ex_program t1 t2).
Proof.
  intros F.
  assert (A : Forall (calm_call fuel 8000) ex_calls).
  { repeat constructor; try reflexivity; try (intros; discriminate); try (intros [H|[H|H]]; discriminate H); intros [H|H]; try (unfold BK_VOLUME_0, BK_VOLUME_7, BK_VOLUME, BK_DUTY_CYCLE, BK_NOTE, BK_MASTER_VOLUME in *; lia); discriminate H. }
  split.
  - intros id k t. split; [|cbn; unfold BK_TIME_MAX; lia]. cbn [e_calls ex_env]. destruct (id =? 0); [|constructor]. constructor; [|constructor]. cbn [fst snd calm_call].
    assert (0 <= k mod 90 < 90) by (apply Z.mod_pos_bound; lia). unfold in_s32.
    split; [reflexivity|]. split; [lia|]. split; [intros [H'|H']; discriminate H'|]. split; [intros [H'|[H'|H']]; discriminate H'|].
    intros [H'|H']; [discriminate H'|]. unfold BK_NOTE, BK_VOLUME_0, BK_VOLUME_7 in H'. lia.
  - destruct (C100_tracks fuel 8000 BK_SQUARE ex_calls ltac:(lia) ltac:(discriminate) A) as (a & t1 & l1 & E1 & R1 & M1).
    destruct (C100_tracks fuel 8000 BK_NOISE ex_calls ltac:(lia) ltac:(discriminate) A) as (b & t2 & l2 & E2 & R2 & M2).
    exists a, t1, l1, b, t2, l2. split; [exact E1|]. split; [exact R1|]. split; [exact E2|]. split; [exact R2|].
    cbn [calm ex_program app filter Z.eqb Pos.eqb negb map fold_right]. change (u32 3000) with 3000. change (u32 70000) with 70000. change (u32 10) with 10. change (u32 20) with 20.
    change MAX_CLOCK with 2305843009213693952. change MAX_FRAMES with 1099511627776.
    split; [reflexivity|]. split; [lia|]. split; [lia|]. split; [lia|]. split; [exact M1|]. split; [lia|]. split; [discriminate|]. split; [lia|].
    split.
    { split; [reflexivity|]. split; [reflexivity|]. split; [intros [H|H]; discriminate H|]. split; [intros [H|[H|H]]; discriminate H|].
      intros [H|H]; [discriminate H|]. unfold BK_VOLUME, BK_VOLUME_0, BK_VOLUME_7 in H. lia. }
    split; [lia|]. split; [lia|]. split; [exact M2|]. split; [lia|]. split; [discriminate|]. split; [lia|]. split; [discriminate|]. split; [lia|]. split; [discriminate|]. split; [lia|]. exact I.
Qed.

Print Assumptions C100_any_kernel.
Print Assumptions C100_harmonic.
Print Assumptions C100_sinc.
Print Assumptions C100_tracks.
Print Assumptions C100_example.
