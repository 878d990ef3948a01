(** Properties of channels into which several sources are mixed: C98, C99. *)
From Verif Require Import CInt CIntFacts TimeModel Kernels BufferModel BufferSpec BufferProofs BufferProofs2 MixSpec MixProofs UnitModel TrackModel PropertiesBuffer ContextModel ContextSpec PropertiesContext.
Ltac Zify.zify_post_hook ::= idtac.

(** * C98: no overflow *)

(** Any kernel whose rows have the same sum [g].  [cell_gain K] is the sum of all rises of the kernel,
    [sum_gain K g] the sum of all rises and falls of its step response. *)
Theorem C98_any_kernel K g srcs lo hi rs : kernel_ok K -> (forall row, In row K -> zsum row = g) ->
  sources_ok srcs lo hi rs -> swing srcs lo hi * cell_gain K <= 2147483647 -> swing srcs lo hi * sum_gain K g <= 2147483647 ->
  rounds_ok 0 0 (map plain rs) -> whole_frames (map plain rs) ->
  exists b', rounds_run (mk_buffer 0 0 0 (repeat 0 BK_BUFFER_CAPACITY) K) (raw_rounds (map plain rs)) = Ok (b', stream_spec K (map plain rs)).
Proof.
  intros HK HG (ND & ZI & IN & LV) CG SG R W.
  destruct (mix_rounds K g srcs lo hi (labelled 0 rs) HK HG ND ZI IN LV CG SG rs _ 0 0 [] (init_stream K HK)) as (b' & s & E); try reflexivity; try assumption; [split; [lia|reflexivity]|].
  exists b'. rewrite E. rewrite (C67_stream_partial K (map plain rs) b' s HK R W E). reflexivity.
Qed.

Lemma harm_gains : cell_gain BKBufferStepPhasesHarm = 54303 /\ sum_gain BKBufferStepPhasesHarm 32767 = 63637.
Proof. split; vm_compute; reflexivity. Qed.
Lemma sinc_gains : cell_gain BKBufferStepPhasesSinc = 69426 /\ sum_gain BKBufferStepPhasesSinc 32767 = 78549.
Proof. split; vm_compute; reflexivity. Qed.

(** The kernel of a new context: the levels of all sources together may be 33745 apart. *)
Theorem C98_harmonic srcs lo hi rs : sources_ok srcs lo hi rs -> swing srcs lo hi <= 33745 ->
  rounds_ok 0 0 (map plain rs) -> whole_frames (map plain rs) ->
  exists b', rounds_run BKBufferInit (raw_rounds (map plain rs)) = Ok (b', stream_spec BKBufferStepPhasesHarm (map plain rs)).
Proof.
  intros S B R W. destruct harm_gains as [G1 G2]. apply (C98_any_kernel _ 32767 srcs lo hi rs kernel_ok_harm); rewrite ?G1, ?G2; try assumption; try lia.
  intros row I. apply (C06_kernel_gain BKBufferStepPhasesHarm); auto.
Qed.

(** The other kernel. *)
Theorem C98_sinc srcs lo hi rs : sources_ok srcs lo hi rs -> swing srcs lo hi <= 27339 ->
  rounds_ok 0 0 (map plain rs) -> whole_frames (map plain rs) ->
  exists b', rounds_run (mk_buffer 0 0 0 (repeat 0 BK_BUFFER_CAPACITY) BKBufferStepPhasesSinc) (raw_rounds (map plain rs)) = Ok (b', stream_spec BKBufferStepPhasesSinc (map plain rs)).
Proof.
  intros S B R W. destruct sinc_gains as [G1 G2]. apply (C98_any_kernel _ 32767 srcs lo hi rs kernel_ok_sinc); rewrite ?G1, ?G2; try assumption; try lia.
  intros row I. apply (C06_kernel_gain BKBufferStepPhasesSinc); auto.
Qed.

Lemma unsaturated a : - 536870912 <= a < 536870912 -> saturate a = a / 16384.
Proof. intros A. unfold saturate. assert (-32768 <= a / 16384 < 32768) by (Z.to_euclidean_division_equations; lia). destruct (a / 16384 >? 65535) eqn:?, (a / 16384 >? 32767) eqn:?, (a / 16384 <? -65536) eqn:?, (a / 16384 <? -32768) eqn:?; lia. Qed.

(** Up to a quarter of that the output is not clipped: every sample is the filtered sum of all pulses. *)
Theorem C98_no_clipping srcs lo hi rs : sources_ok srcs lo hi rs -> swing srcs lo hi <= 8436 ->
  rounds_ok 0 0 (map plain rs) -> whole_frames (map plain rs) ->
  exists b', rounds_run BKBufferInit (raw_rounds (map plain rs)) =
    Ok (b', map (fun a => a / 16384) (integrate 0 (map (pulses_at BKBufferStepPhasesHarm (rounds_pulses 0 (map plain rs))) (zseq 0 (Z.to_nat (rounds_read (map plain rs))))))).
Proof.
  intros S B R W. destruct (C98_harmonic srcs lo hi rs S ltac:(lia) R W) as (b' & E). exists b'. rewrite E. f_equal. f_equal. unfold stream_spec. apply map_ext_in. intros a A.
  apply unsaturated. destruct S as (ND & ZI & IN & LV). destruct harm_gains as [_ G2].
  assert (HG : gain_ok BKBufferStepPhasesHarm 32767) by (intros row I; apply (C06_kernel_gain BKBufferStepPhasesHarm); auto).
  pose proof (integrate_all _ 32767 srcs lo hi (labelled 0 rs) kernel_ok_harm HG ND ZI IN LV (labelled 0 rs) [] (Z.to_nat (rounds_read (map plain rs))) ltac:(symmetry; apply app_nil_r)) as F.
  rewrite G2 in F. assert (X : forall rs now, map snd (labelled now rs) = rounds_pulses now (map plain rs)).
  { clear. induction rs as [|r rs IH]; intros now; [reflexivity|]. cbn [labelled map rounds_pulses plain r_pulses r_end]. rewrite map_app, IH, !map_map. reflexivity. }
  rewrite X in F. rewrite Forall_forall in F. specialize (F a A). cbv beta in F. lia.
Qed.

(** Two sources over two rounds; the second one goes below zero. *)
Definition ex_sources : list sround :=
  [ mk_sround [(1, (0, 4000)); (2, (500000, -3000)); (1, (1500000, -4000)); (1, (1600000, 4000))] 10485760 4;
    mk_sround [(2, (77, 3000)); (1, (100, -4000)); (2, (5000000, -3000))] 10485760 16 ].
Example C98_example : sources_ok [1; 2] (fun s => if s =? 1 then 0 else -3000) (fun s => if s =? 1 then 4000 else 0) ex_sources /\
  swing [1; 2] (fun s => if s =? 1 then 0 else -3000) (fun s => if s =? 1 then 4000 else 0) = 7000 /\
  rounds_ok 0 0 (map plain ex_sources) /\ whole_frames (map plain ex_sources) /\
  nth 17 (stream_spec BKBufferStepPhasesHarm (map plain ex_sources)) 0 = 1238.
Proof.
  split.
  { split; [repeat constructor; cbn; intuition lia|]. split; [intros s [<-|[<-|[]]]; cbn; lia|]. split; [intros x; cbn; intuition (subst; cbn; lia)|].
    intros s [<-|[<-|[]]]; cbn; lia. }
  split; [reflexivity|]. split.
  { unfold ex_sources. cbn [map plain rounds_ok r_end r_pulses r_read sr_pulses sr_end sr_read snd]. change ((0 + 10485760) / 1048576) with 10. change ((0 + 10485760 + 10485760) / 1048576) with 20. repeat split; try lia; cbn [In] in *; intuition (try congruence);
    repeat match goal with H : (_, _) = (_, _) |- _ => inversion H; clear H end; subst; unfold is_s16; lia. }
  split; [repeat constructor|]. vm_compute. reflexivity.
Qed.

(** * C99: loud sources *)

(** One source at full volume, with levels on one side of zero or up to half the volume on both sides, is fine. *)
Theorem C99_one_source_partial s lo hi rs : sources_ok [s] lo hi rs -> hi s - lo s <= 32767 ->
  rounds_ok 0 0 (map plain rs) -> whole_frames (map plain rs) ->
  exists b', rounds_run BKBufferInit (raw_rounds (map plain rs)) = Ok (b', stream_spec BKBufferStepPhasesHarm (map plain rs)).
Proof. intros S B R W. apply (C98_harmonic [s] lo hi rs S); [unfold swing, zsum; cbn; lia|exact R|exact W]. Qed.

Definition ex_loud : list sround :=
  [ mk_sround [(1, (0, 32767)); (1, (1500000, -32767)); (1, (2600000, 32767))] 10485760 4; mk_sround [] 20971520 26 ].
Example C99_example : sources_ok [1] (fun _ => 0) (fun _ => 32767) ex_loud /\ rounds_ok 0 0 (map plain ex_loud) /\ whole_frames (map plain ex_loud) /\
  nth 28 (stream_spec BKBufferStepPhasesHarm (map plain ex_loud)) 0 = 32767.
Proof.
  split.
  { split; [repeat constructor; cbn; tauto|]. split; [intros s _; lia|]. split; [intros x; cbn; intuition (subst; cbn; lia)|]. intros s [<-|[]]; cbn; lia. }
  split.
  { unfold ex_loud. cbn [map plain rounds_ok r_end r_pulses r_read sr_pulses sr_end sr_read snd]. change ((0 + 10485760) / 1048576) with 10. change ((0 + 10485760 + 20971520) / 1048576) with 30.
    repeat split; try lia; cbn [In] in *; intuition (try congruence); repeat match goal with H : (_, _) = (_, _) |- _ => inversion H; clear H end; subst; unfold is_s16; lia. }
  split; [repeat constructor|]. vm_compute. reflexivity.
Qed.

(** Two tracks which play the same note at full volume overflow the accumulator of the channel. *)
Theorem C99_two_tracks_refuted : exists ops c ls, legal false [] ops /\ attached [] ops = [1; 2] /\
  xruns 9 99 idle 1000 mono ops = Ok (c, ls) /\ (exists c' l, BKContextGenerate 9 99 idle 1000 c 70 = Ok (c', 70, l)) /\ BKContextGenerate 9 99 idle 1000 c 90 = Err EOverflow.
Proof.
  exists [XAttachTrack 1 (plays high); XAttachTrack 2 (plays high)].
  destruct (computed (xruns 9 99 idle 1000 mono [XAttachTrack 1 (plays high); XAttachTrack 2 (plays high)]) (fun r =>
    match BKContextGenerate 9 99 idle 1000 (fst r) 90 with Err EOverflow => True | _ => False end /\ match BKContextGenerate 9 99 idle 1000 (fst r) 70 with Ok (_, w, _) => w = 70 | _ => False end)) as ([c ls] & E & H1 & H2);
    [vm_compute; split; reflexivity || exact I|].
  exists c, ls. split; [legality|]. split; [reflexivity|]. split; [exact E|]. cbn [fst] in H1, H2. split.
  - destruct (BKContextGenerate 9 99 idle 1000 c 70) as [[[c' w] l]|]; [|destruct H2]. exists c', l. rewrite H2. reflexivity.
  - destruct (BKContextGenerate 9 99 idle 1000 c 90) as [[[c' w] l]|[]]; try destruct H1. reflexivity.
Qed.

(** The same for the channel alone: two sources that jump to the highest level at the same time. *)
Theorem C99_two_sources_refuted : exists rs, sources_ok [1; 2] (fun _ => 0) (fun _ => 32767) rs /\ rounds_ok 0 0 (map plain rs) /\ whole_frames (map plain rs) /\
  rounds_run BKBufferInit (raw_rounds (map plain rs)) = Err EOverflow.
Proof.
  exists [mk_sround [(1, (0, 32767)); (2, (0, 32767))] 20971520 20]. split.
  { split; [repeat constructor; cbn; intuition lia|]. split; [intros s _; lia|]. split; [intros x; cbn; intuition (subst; cbn; lia)|]. intros s [<-|[<-|[]]]; cbn; lia. }
  split.
  { cbn [map plain rounds_ok r_end r_pulses r_read sr_pulses sr_end sr_read snd]. change ((0 + 20971520) / 1048576) with 20.
    repeat split; try lia; cbn [In] in *; intuition (try congruence); repeat match goal with H : (_, _) = (_, _) |- _ => inversion H; clear H end; subst; unfold is_s16; lia. }
  split; [repeat constructor|]. vm_compute. reflexivity.
Qed.

Print Assumptions C98_any_kernel.
Print Assumptions C98_harmonic.
Print Assumptions C98_sinc.
Print Assumptions C98_no_clipping.
Print Assumptions C99_one_source_partial.
Print Assumptions C99_two_tracks_refuted.
Print Assumptions C99_two_sources_refuted.
