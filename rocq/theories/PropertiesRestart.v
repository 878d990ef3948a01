(** Properties of what a reset leaves of a track: C124. *)
From Verif Require Import CInt CIntFacts TimeModel Kernels BufferModel DataModel UnitModel InterpModel ToneModel SequenceModel TrackModel TrackSpec TrackProofs6 TrackNote PropertiesTrack
  ContextModel ResetSame TrackSame ReplaySame ReplayProofs ResetReads.
Ltac Zify.zify_post_hook ::= idtac.

(** C124: after [BKTrackReset] of an attached track with a built-in waveform [BKGetAttr] and [BKGetPtr] give the defaults,
    but for the master volume, the waveform and the flag of the triangle wave, which are kept. *)
Theorem C124_reset_partial fuel t n : reachable fuel t -> un_ctx (tr_unit t) = Some n -> waveform_phases (un_waveform (tr_unit t)) <> None -> waveform_phases (tr_waveform t) <> None ->
  exists t', BKTrackReset fuel t = Ok t' /\
  (forall attr v, attr = BK_MASTER_VOLUME \/ attr = BK_TRIANGLE_IGNORES_VOLUME -> reads t attr v -> reads t' attr v) /\ reads t' BK_WAVEFORM (tr_waveform t) /\
  (reads t' BK_VOLUME 32767 /\ reads t' BK_PANNING 0 /\ reads t' BK_NOTE (-1) /\ reads t' BK_MUTE 1 /\ reads t' BK_DUTY_CYCLE 4 /\
   reads t' BK_SAMPLE_PITCH 0 /\ reads t' BK_PHASE 0 /\ reads t' BK_PHASE_WRAP 0 /\ reads t' BK_SAMPLE_REPEAT 0 /\ reads t' BK_SAMPLE_PERIOD 1048576 /\
   reads t' BK_SAMPLE_IMMED_RELEASE 0 /\ reads t' BK_FLAG_RELEASE 0) /\
  (reads t' BK_ARPEGGIO_DIVIDER 4 /\ reads t' BK_EFFECT_DIVIDER 1 /\ reads t' BK_INSTRUMENT_DIVIDER 4) /\
  (reads t' BK_EFFECT_VOLUME_SLIDE 0 /\ reads t' BK_EFFECT_PANNING_SLIDE 0 /\ reads t' BK_EFFECT_PORTAMENTO 0) /\
  (BKTrackGetPtr t' BK_EFFECT_TREMOLO 12 = (0, [0; 0; 0]) /\ BKTrackGetPtr t' BK_EFFECT_VIBRATO 12 = (0, [0; 0; 0]) /\
   BKTrackGetPtr t' BK_INSTRUMENT 8 = (0, [0]) /\ BKTrackGetPtr t' BK_ARPEGGIO 36 = (0, [0])).
Proof.
  intros R EC EU EW. assert (H : track_ok fuel t) by (apply reachable_ok; exact R).
  destruct (reset_ok fuel t H) as (t' & E & _). exists t'. split; [exact E|].
  destruct (reset_reads fuel t n t' EC EU EW (tk_master _ _ H) E) as ((A1 & A2 & A3) & A4 & A5 & A6 & A7).
  split; [|split; [exact A2|split; [exact A4|split; [exact A5|split; [exact A6|exact A7]]]]].
  intros attr v [->| ->] K; unfold reads in *.
  - assert (tr_master t = v) as <- by (change (BKTrackGetAttr t BK_MASTER_VOLUME) with (@Ok (Z * option Z) (0, Some (tr_master t))) in K; congruence). exact A1.
  - assert ((if has t FTri then 1 else 0) = v) as <- by (change (BKTrackGetAttr t BK_TRIANGLE_IGNORES_VOLUME) with (@Ok (Z * option Z) (0, Some (if has t FTri then 1 else 0))) in K; congruence). exact A3.
Qed.

(** A track in the middle of a note, with effects, an arpeggio and other dividers. *)
Definition busy_ops : list top :=
  [OAttach 2 44100 0; OAttr BK_MASTER_VOLUME 20000; OAttr BK_VOLUME 9000; OAttr BK_PANNING (-5000); OAttr BK_DUTY_CYCLE 7; OAttr BK_PHASE 3; OAttr BK_INSTRUMENT_DIVIDER 6; OAttr BK_TRIANGLE_IGNORES_VOLUME 0;
   OPtr BK_EFFECT_VIBRATO (TInts [4; 1000000]) 8; OPtr BK_ARPEGGIO (TInts [2; 0; 4194304]) 12; OAttr BK_NOTE 25165824; OTick; OEnd 1000000; OTick].
Definition busy : track := track_after BK_SAWTOOTH busy_ops.
Lemma busy_reachable : reachable 1000 busy.
Proof. fines. Qed.
Example C124_reset_example : reachable 1000 busy /\ un_ctx (tr_unit busy) = Some 2 /\ waveform_phases (un_waveform (tr_unit busy)) <> None /\ waveform_phases (tr_waveform busy) <> None /\
  reads busy BK_MASTER_VOLUME 20000 /\ reads busy BK_VOLUME 9000 /\ reads busy BK_PANNING (-5000) /\ reads busy BK_NOTE 25165824 /\ reads busy BK_INSTRUMENT_DIVIDER 6 /\
  BKTrackGetPtr busy BK_ARPEGGIO 12 = (0, [2; 0; 4194304]).
Proof. split; [exact busy_reachable|]. vm_compute. repeat split; discriminate. Qed.

Lemma computed {A} (r : res A) (Q : A -> Prop) : match r with Ok a => Q a | Err _ => False end -> exists a, r = Ok a /\ Q a.
Proof. destruct r as [a|]; [|contradiction]. intros H. exists a. split; [reflexivity|exact H]. Qed.

(** A custom waveform is lost: after the reset the track has no waveform at all. *)
Definition custom_track : track := track_after BK_SQUARE [OAttach 2 44100 0; OPtr BK_WAVEFORM (TData 5 (mk_wdata 4 1 [32767; 0; -32767; 0]) 0) 8; OAttr BK_NOTE 25165824].
Theorem C124_custom_refuted : exists t', BKTrackReset 1000 custom_track = Ok t' /\ reads custom_track BK_WAVEFORM BK_CUSTOM /\ reads t' BK_WAVEFORM 0.
Proof.
  destruct (computed (BKTrackReset 1000 custom_track) (fun t' => reads custom_track BK_WAVEFORM BK_CUSTOM /\ reads t' BK_WAVEFORM 0)) as (t' & E & H); [vm_compute; split; reflexivity|].
  exists t'. split; [exact E|exact H].
Qed.

Print Assumptions C124_reset_partial.
Print Assumptions C124_custom_refuted.
