(** Properties of playing again after a reset: C123. *)
From Verif Require Import CInt CIntFacts TimeModel Kernels BufferModel DataModel UnitModel ToneModel TrackModel TrackSpec PropertiesTrack
  ContextModel PropertiesContext ResetSame TrackSame ReplaySame ReplayProofs.
Ltac Zify.zify_post_hook ::= idtac.

(** C123: two contexts with the same settings ([context_settings]: sample rate, clock periods, pulse kernels
    and, for each track, the settings a reset keeps) give the same audio after a reset, whatever has been
    played on them before and whatever is called then. *)
Theorem C123_reset_audio_partial m n e fuel c1 c2 c1' ops : context_settings c1 c2 -> BKContextReset fuel c1 = Ok c1' ->
  exists c2', BKContextReset fuel c2 = Ok c2' /\ audio (xruns m n e fuel c2' ops) = audio (xruns m n e fuel c1' ops).
Proof. apply reset_audio. Qed.

(** A song played after a reset is heard the same after the next reset. *)
Theorem C123_replay_partial m n e fuel c c1 c2 ops l : BKContextReset fuel c = Ok c1 -> xruns m n e fuel c1 ops = Ok (c2, l) -> context_settings c c2 ->
  exists c3 c4, BKContextReset fuel c2 = Ok c3 /\ xruns m n e fuel c3 ops = Ok (c4, l).
Proof. apply replay. Qed.

Definition get {A} (d : A) (r : res A) : A := match r with Ok a => a | Err _ => d end.
Definition works {A} (r : res A) : bool := match r with Ok _ => true | Err _ => false end.

(** One context has just been made, with a track which plays a note; the other is in the middle of a tick, its
    track plays another note with a vibrato and its buffers are not empty. *)
Definition track_unused : track := track_after BK_SQUARE (settings high ++ [OAttach 1 44100 0]).
Definition track_used : track := track_after BK_SQUARE (settings high ++ [OAttach 1 44100 0; OAttr BK_DUTY_CYCLE 7; OPtr BK_EFFECT_VIBRATO (TInts [4; 1000000]) 8; OTick; OEnd 1000000; OAttr BK_NOTE 83886080; OTick]).
Definition unused : context := x_tracks quick [(1, track_unused)].
Definition used : context := x_channels (x_current (x_delta (x_tracks quick [(1, track_used)]) 300000) 5000000) (map (fun b => mk_buffer 3000000 2 1234 (upd (b_frames b) 3 77) (b_pulse b)) (cx_channels quick)).
Lemma tracks_example : track_settings track_unused track_used.
Proof. constructor; vm_compute; repeat split; congruence || discriminate. Qed.
Lemma settings_example : context_settings unused used.
Proof.
  constructor; [reflexivity|reflexivity|reflexivity| |].
  - unfold used, x_channels, unused, x_tracks. cbn [cx_channels]. rewrite map_map. reflexivity.
  - constructor; [split; [reflexivity|exact tracks_example]|constructor].
Qed.
Example C123_reset_audio_example : context_settings unused used /\ tr_curNote track_unused = 25165824 /\ tr_curNote track_used = 83886080 /\
  un_period (tr_unit track_unused) <> un_period (tr_unit track_used) /\ works (BKContextReset 1000 unused) = true.
Proof. split; [exact settings_example|]. vm_compute. repeat split; discriminate. Qed.

(** The first context after a reset and a note, with its fields written out. *)
Definition song : list xop := map (XTrack 1) (settings 94371840) ++ [XGenerate 24].
Definition fresh : context := Eval vm_compute in get quick (BKContextReset 1000 unused).
Definition played : context * list (list (list Z)) := Eval vm_compute in get (quick, []) (xruns 9 99 idle 1000 fresh song).
Lemma fresh_eq : BKContextReset 1000 unused = Ok fresh.
Proof. vm_compute. reflexivity. Qed.
Lemma played_eq : xruns 9 99 idle 1000 fresh song = Ok played.
Proof. vm_compute. reflexivity. Qed.
Lemma played_settings : context_settings unused (fst played).
Proof.
  constructor; [reflexivity|reflexivity|reflexivity|vm_compute; reflexivity|].
  constructor; [split; [reflexivity|]|constructor]. constructor; vm_compute; repeat split; congruence || discriminate.
Qed.
Example C123_replay_example : exists c1 c2 l, BKContextReset 1000 unused = Ok c1 /\ xruns 9 99 idle 1000 c1 song = Ok (c2, l) /\
  context_settings unused c2 /\ sounds (last l []) = true.
Proof.
  exists fresh, (fst played), (snd played). split; [exact fresh_eq|]. split; [rewrite <- surjective_pairing; exact played_eq|].
  split; [exact played_settings|]. vm_compute. reflexivity.
Qed.

(** With a custom waveform the same calls are heard before a reset, and after it they are silent. *)
Definition custom_data : wdata := mk_wdata 4 1 [32767; 0; -32767; 0].
Definition custom_ops : list xop :=
  [XAttachTrack 1 (plays high); XTrack 1 (OPtr BK_WAVEFORM (TData 5 custom_data 0) 8)] ++ map (XTrack 1) (OAttr BK_NOTE BK_NOTE_RELEASE :: settings 94371840) ++ [XGenerate 24] ++
  [XReset] ++ map (XTrack 1) (OAttr BK_NOTE BK_NOTE_RELEASE :: settings 94371840) ++ [XGenerate 24].
Theorem C123_custom_refuted : exists c ls, xruns 9 99 idle 1000 quick custom_ops = Ok (c, ls) /\
  sounds (nth 7 ls []) = true /\ sounds (nth 14 ls []) = false.
Proof.
  destruct (computed (xruns 9 99 idle 1000 quick custom_ops) (fun r => sounds (nth 7 (snd r) []) = true /\ sounds (nth 14 (snd r) []) = false))
    as ([c ls] & E & H); [vm_compute; repeat split|].
  exists c, ls. split; [exact E|exact H].
Qed.

Print Assumptions C123_reset_audio_partial.
Print Assumptions C123_replay_partial.
Print Assumptions C123_custom_refuted.
