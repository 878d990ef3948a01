(** Properties of what is heard of instruments in tracks: C117, C118. *)
From Verif Require Import CInt CIntFacts DataModel UnitModel UnitSpec UnitProofs UnitProofs2 UnitInv UnitInv2 UnitInv3
  InterpModel SlideIn ToneModel PropertiesTone SequenceModel SequenceSpec SequenceProofs InstrumentProofs InstrBounds
  TrackModel TrackSpec TrackInv TrackProofs TrackProofs2 TrackProofs3 TrackProofs4 TrackVolume TrackPlay TrackTicks TrackNote TrackAttrs TrackInstr TrackInstr2 TrackInstr3 TrackInstr4 TrackInstr5 PropertiesTrack.
Ltac Zify.zify_post_hook ::= idtac.
Local Notation played := SequenceSpec.played.

Lemma computed {A} (x y : A) : (let z := y in x = z) -> x = y.
Proof. intros H. exact H. Qed.

(** * C117 *)

(** A silent track in a context, without effects and arpeggio; no portamento has left steps or
    a rounding. *)
Definition idle (t : track) : Prop :=
  un_ctx (tr_unit t) <> None /\ tr_curNote t = -1 /\ any_effect t = false /\ has t FArp = false /\ sl_steps (tr_note t) = 0 /\ sl_roundBias (tr_note t) = 0.
(** All sequences are lists of values. *)
Definition value_sequences (sqs : list (option sequence)) : Prop :=
  forall j sq, nth_error sqs j = Some (Some sq) -> exists vals, sq_values sq = VSimple vals /\ vals <> [].
(** Value of slot [j] when [n] values have been passed: the value of the sequence, which
    repeats its sustained part, or stays at its last value if it has none; full volume and no
    change if there is no sequence. *)
Definition slot_heard (sqs : list (option sequence)) (n j : nat) : Z :=
  match nth j sqs None with
  | None => nth j [32767; 0; 0; 0] 0
  | Some sq =>
    match sq_values sq with
    | VSimple vals => nth (Nat.min (attack_index (Z.to_nat (sq_sustainOffset sq)) (Z.to_nat (sq_sustainLength sq)) n) (length vals - 1)) vals 0
    | VEnvelope _ => 0
    end
  end.
(** All sequences have been left at their end after [n] values: there is one, and none has a
    sustained part or more values. *)
Definition slot_ended (n : nat) (osq : option sequence) : bool :=
  match osq with
  | Some sq => (sq_sustainOffset sq =? sq_length sq) && (sq_length sq <? Z.of_nat n)
  | None => true
  end.
Definition ended (sqs : list (option sequence)) (n : nat) : bool := existsb (fun q => match q with Some _ => true | None => false end) sqs && forallb (slot_ended n) sqs.
(** The levels from which the volumes of the unit are: the ones of the track, and those of the
    instrument. *)
Definition track_levels (t : track) (v p : Z) (l : levels) : Prop :=
  BKSlideStateGetValue (tr_volume t) = Ok (lv_volume l) /\ BKSlideStateGetValue (tr_panning t) = Ok (lv_panning l) /\
  lv_ignore l = has t FIgnore /\ lv_master l = tr_master t /\ lv_stereo l = has t FPan /\ lv_instr l = Some (v, p) /\ lv_tremolo l = None.

(** The calls: the instrument, the note, and [k] ticks. *)
Definition sung (fuel : nat) (t : track) (id : Z) (sqs : list (option sequence)) (size v : Z) (k : nat) (t3 : track) : Prop :=
  exists t1 t2, BKTrackSetPtr fuel t BK_INSTRUMENT (TInstr id sqs) size = Ok (t1, 0) /\ BKTrackSetAttr fuel t1 BK_NOTE v = Ok (t2, 0) /\ ticks fuel k t2 = Ok t3.
(** The unit plays the note with the values [x] of the slots. *)
Definition heard_with (t0 : track) (v : Z) (x : nat -> Z) (t : track) : Prop :=
  unit_plays t (Z.min v MAX_NOTE + x 2%nat + tr_pitch t0) /\
  (exists l, track_levels t0 (x 0%nat) (x 1%nat) l /\ volumes t l /\ 0 <= level l <= tr_master t0) /\
  BKTrackGetAttr t BK_DUTY_CYCLE = Ok (0, Some (Z.max 1 (Z.min 15 (if x 3%nat =? 0 then tr_duty t0 else x 3%nat)))).
Definition other_instrument (t : track) (id : Z) : Prop := match tr_instr t with Some (id', _) => id <> id' | None => True end.

Lemma mute_attr t : BKTrackGetAttr t BK_MUTE = Ok (0, Some (un_mute (tr_unit t))).
Proof. reflexivity. Qed.
Lemma slot_wf fuel sqs j sq : sequences_ok fuel sqs -> value_sequences sqs -> nth_error sqs j = Some (Some sq) ->
  exists vals so sl, sq_values sq = VSimple vals /\ seq_wf sq (length vals) so sl /\ (0 < length vals)%nat.
Proof.
  intros HQ HH EJ. destruct (HH j sq EJ) as (vals & EV & BO).
  assert (exists r, nth_error slot_ranges j = Some r) as (r & Er).
  { destruct (nth_error slot_ranges j) eqn:Er; [eauto|]. apply nth_error_None in Er. rewrite (Forall2_length _ _ _ HQ) in Er. assert (j < length sqs)%nat by (apply nth_error_Some; congruence). lia. }
  pose proof (Forall2_nth_error _ _ _ _ _ _ HQ Er EJ) as (SQ & _). unfold seq_ok in SQ. rewrite EV in SQ. destruct SQ as (so & sl & W). exists vals, so, sl.
  split; [exact EV|]. split; [exact W|]. destruct vals; [congruence|cbn; lia].
Qed.
Lemma slot_run_values fuel sqs d j sq st k : 1 <= d -> sequences_ok fuel sqs -> value_sequences sqs -> nth_error sqs j = Some (Some sq) ->
  doneb (slot_at fuel sq d k st) = slot_ended (divided d k) (Some sq) /\ ((1 <= k)%nat -> st_value (slot_at fuel sq d k st) = slot_heard sqs (Z.to_nat (Z.of_nat (k - 1) / d)) j).
Proof.
  intros HD HQ HH EJ. destruct (slot_wf fuel sqs j sq HQ HH EJ) as (vals & so & sl & EV & W & BO).
  destruct (attack_begin vals sq so sl W EV fuel st BO) as (st' & E & A & _). unfold slot_at, phase_slot. cbn [fst snd]. rewrite E.
  destruct (attack_beats vals sq so sl EV W fuel d (hd 0 vals) st' HD A k) as (A' & V'). pose proof W as (W1 & W2 & W3 & W4 & _). split.
  - change (Z.to_nat ((Z.of_nat k + d - 1) / d)) with (divided d k) in A'. rewrite (attack_done vals sq so sl W _ _ _ A'). unfold slot_ended. rewrite W1, W2.
    f_equal; [destruct (Nat.eqb_spec so (length vals)); lia|destruct (Nat.ltb_spec (length vals) (divided d k)); lia].
  - intros HK. rewrite (V' HK). unfold slot_heard. rewrite (nth_error_nth _ _ None EJ), EV, W2, W3, !Nat2Z.id. set (n := Z.to_nat _). unfold attack_value.
    destruct (nth_error vals (attack_index so sl n)) as [y|] eqn:EM.
    + assert (attack_index so sl n < length vals)%nat by (apply nth_error_Some; congruence). rewrite Nat.min_l by lia. symmetry. apply nth_error_nth. exact EM.
    + apply nth_error_None in EM. rewrite Nat.min_r by lia. destruct (nth_error vals (length vals - 1)) as [y|] eqn:EL; [|apply nth_error_None in EL; lia].
      rewrite (nth_last vals vals (hd 0 vals) y EL). symmetry. apply nth_error_nth. exact EL.
Qed.
Lemma ended_mono sqs a b : (a <= b)%nat -> ended sqs a = true -> ended sqs b = true.
Proof.
  intros L. unfold ended. intros E. apply andb_true_iff in E. destruct E as (-> & E). cbn [andb]. rewrite forallb_forall in *. intros q I. specialize (E q I). unfold slot_ended in *. destruct q as [q|]; [|reflexivity].
  apply andb_true_iff in E. destruct E as (-> & E). cbn [andb]. lia.
Qed.

(** The note is played with the values of its sequences. *)
Lemma begun fuel t id sqs size v k : reachable fuel t -> idle t -> sequences_ok fuel sqs -> value_sequences sqs -> other_instrument t id -> 0 <= v -> (1 <= k)%nat ->
  let d := ds_divider (tr_instrDiv t) in
  exists t3, sung fuel t id sqs size v k t3 /\ 1 <= d < 2147483648 /\
    if ended sqs (divided d k) then silent t3
    else voice fuel sqs d k (Z.min v MAX_NOTE) t3 /\ settings t t3 /\ heard t3 /\ un_mute (tr_unit t3) = 0 /\ is_phase (tr_istate t3) = 1 /\
      forall j, (j < 4)%nat -> exists st, nth_error (is_states (tr_istate t3)) j = Some st /\ st_value st = slot_heard sqs (Z.to_nat (Z.of_nat (k - 1) / d)) j.
Proof.
  intros HR (HC & HN & HE & HA & S0 & B0) HQ HH NS HV HK d. pose proof (reachable_ok _ _ HR) as H.
  assert (ES : same_instr (Some (id, BKInstrumentUpdateNumSequences sqs)) (tr_instr t) = false).
  { unfold other_instrument in NS. cbn [same_instr]. destruct (tr_instr t) as [[id' i']|]; [apply Z.eqb_neq; exact NS|reflexivity]. }
  destruct (voice_begin fuel t id sqs v H HQ HC ES HN HE HA S0 B0 HV) as (t1 & t2 & sts & E1 & E2 & VO & SE & HD & MU & PH & SS & F2). fold d in VO, HD.
  assert (OP : forall j sq k', nth_error sqs j = Some (Some sq) -> exists st, nth_error (played fuel sqs (beats d 0 k') (phased fuel sqs 1 sts)) j = Some (slot_at fuel sq d k' st)).
  { intros j sq k' EJ. destruct (nth_error sts j) as [st|] eqn:ET.
    - exists st. unfold slot_at. apply played_slot; [exact EJ|]. apply phased_slot; assumption.
    - exfalso. apply nth_error_None in ET. assert (j < length sqs)%nat by (apply nth_error_Some; congruence). rewrite (Forall2_length _ _ _ F2) in *. lia. }
  assert (UN : forall k', unfinished sqs (played fuel sqs (beats d 0 k') (phased fuel sqs 1 sts)) = 0 <-> forallb (slot_ended (divided d k')) sqs = true).
  { intros k'. rewrite forallb_forall. split.
    - intros U [q|] I; [|reflexivity]. apply In_nth_error in I. destruct I as (j & EJ). destruct (OP j q k' EJ) as (st & EN). destruct (slot_run_values fuel sqs d j q st k' ltac:(lia) HQ HH EJ) as (D & _).
      rewrite <- D. destruct (doneb _) eqn:DB; [reflexivity|]. pose proof (unfinished_pos _ _ _ _ _ EJ EN DB). lia.
    - intros A. apply unfinished_zero. intros j q st EJ EN. destruct (OP j q k' EJ) as (st' & EN'). assert (st = slot_at fuel q d k' st') as -> by congruence.
      destruct (slot_run_values fuel sqs d j q st' k' ltac:(lia) HQ HH EJ) as (-> & _). apply A. apply (nth_error_In _ _ EJ). }
  assert (SU : forall t3, ticks fuel k t2 = Ok t3 -> sung fuel t id sqs size v k t3).
  { intros t3 E3. exists t1, t2. split; [unfold BKTrackSetPtr; rewrite E1; reflexivity|]. split; [unfold BKTrackSetAttr; rewrite E2; reflexivity|exact E3]. }
  destruct (ended sqs (divided d k)) eqn:EE.
  - destruct (voice_ends fuel sqs d 0 _ t2 k HD VO) as (t3 & E3 & S3).
    + rewrite SS. pose proof (unfinished_nonneg sqs (phased fuel sqs 1 sts)) as NN. assert (NZ : unfinished sqs (phased fuel sqs 1 sts) <> 0); [|lia].
      intros C. apply (UN 0%nat) in C. rewrite divided_0 in C by lia. unfold ended in EE. apply andb_true_iff in EE. destruct EE as (X & _). apply existsb_exists in X. destruct X as ([q|] & I & XT); [|discriminate XT].
      rewrite forallb_forall in C. specialize (C _ I). apply In_nth_error in I. destruct I as (j & EJ). destruct (slot_wf fuel sqs j q HQ HH EJ) as (vals & so & sl & _ & (W1 & _) & LP).
      unfold slot_ended in C. apply andb_true_iff in C. destruct C as (_ & C). rewrite W1 in C. lia.
    + rewrite SS. apply UN. unfold ended in EE. apply andb_true_iff in EE. apply EE.
    + exists t3. auto.
  - destruct (voice_ticks fuel sqs d 0 (Z.min v MAX_NOTE) k t2 HD VO) as (t3 & E3 & V3 & SE3 & MU3 & PH3 & S3 & HE3).
    { intros j HJ. rewrite SS. destruct (any_or_none sqs) as [(m & sq & EM)|NO].
      - apply andb_false_iff. right. apply Z.eqb_neq. intros C. apply UN in C. assert (EE' : ended sqs (divided d (S j)) = true).
        { unfold ended. rewrite C, andb_true_r. apply existsb_exists. exists (Some sq). split; [exact (nth_error_In _ _ EM)|reflexivity]. }
        rewrite (ended_mono sqs (divided d (S j)) (divided d k)) in EE; [discriminate|apply divided_mono; lia|exact EE'].
      - rewrite (unfinished_none sqs) by exact NO. reflexivity. }
    exists t3. split; [exact (SU t3 E3)|]. split; [exact HD|]. split; [exact V3|]. split; [exact (settings_trans _ _ _ SE SE3)|]. split; [exact (HE3 HK)|]. split; [congruence|]. split; [congruence|].
    intros j HJ. destruct (voice_length _ _ _ _ _ _ V3) as (L1 & L2). destruct (nth_error sqs j) as [[sq|]|] eqn:EJ.
    + destruct (OP j sq k EJ) as (st & EN). exists (slot_at fuel sq d k st). split; [rewrite S3, SS; exact EN|].
      exact (proj2 (slot_run_values fuel sqs d j sq st k ltac:(lia) HQ HH EJ) HK).
    + unfold slot_heard. rewrite (nth_error_nth _ _ None EJ). destruct (nth_error sequenceDefaultValue j) as [dj|] eqn:EDJ; [|apply nth_error_None in EDJ; cbn in EDJ; lia].
      destruct (vo_empty _ _ _ _ _ _ V3 j dj EJ EDJ) as (st & ET & EV). exists st. split; [exact ET|]. rewrite EV. symmetry. exact (nth_error_nth _ _ 0 EDJ).
    + apply nth_error_None in EJ. lia.
Qed.
Lemma voice_with fuel sqs d j v t0 t x : voice fuel sqs d j (Z.min v MAX_NOTE) t -> settings t0 t -> heard t ->
  (forall i, (i < 4)%nat -> exists st, nth_error (is_states (tr_istate t)) i = Some st /\ st_value st = x i) -> heard_with t0 v x t.
Proof.
  intros V S H X. destruct (voice_heard _ _ _ _ _ _ _ V S H) as (UP & (l & VL & BL & L1 & L2 & L3 & L4 & L5 & L6 & L7) & DU).
  destruct (X 0%nat ltac:(lia)) as (s0 & X0 & Y0). destruct (X 1%nat ltac:(lia)) as (s1 & X1 & Y1). destruct (X 2%nat ltac:(lia)) as (s2 & X2 & Y2). destruct (X 3%nat ltac:(lia)) as (s3 & X3 & Y3).
  rewrite X2 in UP. rewrite X0, X1 in L6. rewrite X3 in DU. rewrite Y2 in UP. rewrite Y0, Y1 in L6. rewrite Y3 in DU.
  split; [exact UP|]. split; [|exact DU]. exists l. unfold track_levels. auto 10.
Qed.

(** An instrument is set on a silent track and a note is played.  After [k] ticks each sequence
    is at its value [(k - 1) / divider]; the pitch, the volumes and the duty cycle of the unit
    are those of the four values.  The note ends by itself if no sequence has a sustained part,
    one divided tick after the last value of the longest. *)
Theorem C117_values fuel t id sqs size v k : reachable fuel t -> idle t -> sequences_ok fuel sqs -> value_sequences sqs -> other_instrument t id -> 0 <= v -> (1 <= k)%nat ->
  let d := ds_divider (tr_instrDiv t) in
  exists t3, sung fuel t id sqs size v k t3 /\
    if ended sqs (divided d k) then BKTrackGetAttr t3 BK_MUTE <> Ok (0, Some 0)
    else BKTrackGetAttr t3 BK_MUTE = Ok (0, Some 0) /\ heard_with t v (slot_heard sqs (Z.to_nat (Z.of_nat (k - 1) / d))) t3.
Proof.
  intros HR HI HQ HH NS HV HK d. destruct (begun fuel t id sqs size v k HR HI HQ HH NS HV HK) as (t3 & SU & HD & K).
  exists t3. split; [exact SU|]. fold d in K. destruct (ended sqs (divided d k)); [unfold silent in K; rewrite mute_attr; congruence|]. destruct K as (VO & SE & HE & MU & PH & X).
  split; [rewrite mute_attr, MU; reflexivity|]. exact (voice_with _ _ _ _ _ _ _ _ VO SE HE X).
Qed.

(** A volume which falls to a half and is held there, a chord of three notes, and three duty
    cycles, each for two ticks. *)
Definition silent_ops : list top := [OAttach 2 44100 0; OAttr BK_MASTER_VOLUME 32767; OAttr BK_VOLUME 32767; OAttr BK_INSTRUMENT_DIVIDER 2].
Definition chord : list (option sequence) :=
  [Some (BKSequenceFuncSimpleCreate [32767; 16384] 1 1); None; Some (BKSequenceFuncSimpleCreate [0; 4194304; 7340032] 0 3); Some (BKSequenceFuncSimpleCreate [2; 4; 8] 0 3)].

Lemma simple_good fuel r vals so sl : Z.of_nat (length vals) < 2 ^ 28 -> Forall (fun v => Z.abs v < 2 ^ snd r) vals -> good fuel r (BKSequenceFuncSimpleCreate vals so sl).
Proof. intros L F. split; [exact (simple_seq_ok fuel vals so sl L)|exact F]. Qed.
Lemma chord_ok : sequences_ok 1000 chord /\ value_sequences chord.
Proof.
  split.
  - unfold sequences_ok, chord, slot_ranges.
    constructor; [apply simple_good; [reflexivity|repeat constructor]|]. constructor; [exact I|].
    constructor; [apply simple_good; [reflexivity|repeat constructor]|]. constructor; [apply simple_good; [reflexivity|repeat constructor]|constructor].
  - intros [|[|[|[|j]]]] sq E; cbn [nth_error chord] in E; [| | | |destruct j; discriminate E]; try discriminate E;
      match type of E with Some (Some ?q) = _ => assert (sq = q) as -> by congruence end; (eexists; split; [reflexivity|discriminate]).
Qed.
Example idle_reachable : reachable 1000 (track_after BK_SQUARE silent_ops) /\ idle (track_after BK_SQUARE silent_ops) /\ tr_instr (track_after BK_SQUARE silent_ops) = None /\
  ds_divider (tr_instrDiv (track_after BK_SQUARE silent_ops)) = 2.
Proof. split; [fines|]. split; [|vm_compute; auto]. unfold idle. split; [vm_compute; discriminate|vm_compute; auto 6]. Qed.
(** In the sixth tick the third note of the chord is played at a half of the volume with the
    duty cycle 8. *)
Example chord_heard : exists t3 l, sung 1000 (track_after BK_SQUARE silent_ops) 1 chord 8 50331648 6 t3 /\ unit_plays t3 57671680 /\
  volumes t3 l /\ lv_instr l = Some (16384, 0) /\ BKTrackGetAttr t3 BK_DUTY_CYCLE = Ok (0, Some 8).
Proof.
  destruct idle_reachable as (R & I & N & D). destruct chord_ok as (Q & V).
  destruct (C117_values 1000 _ 1 chord 8 50331648 6 R I Q V) as (t3 & E & K); [unfold other_instrument; rewrite N; exact Logic.I|lia|lia|].
  rewrite D in K. change (ended chord (divided 2 6)) with false in K. destruct K as (_ & U & (l & L & VL & _) & DU).
  exists t3, l. split; [exact E|]. split; [exact U|]. split; [exact VL|]. destruct L as (_ & _ & _ & _ & _ & L & _). split; [exact L|exact DU].
Qed.

(** A note with two volumes and three duty cycles ends in its seventh tick. *)
Definition oneshot : list (option sequence) := [Some (BKSequenceFuncSimpleCreate [32767; 16384] 2 0); None; None; Some (BKSequenceFuncSimpleCreate [2; 4; 8] 3 0)].
Example oneshot_ends : sequences_ok 1000 oneshot /\ value_sequences oneshot /\ ended oneshot (divided 2 6) = false /\ ended oneshot (divided 2 7) = true.
Proof.
  split; [|split; [|split; reflexivity]].
  - unfold sequences_ok, oneshot, slot_ranges.
    constructor; [apply simple_good; [reflexivity|repeat constructor]|]. constructor; [exact I|]. constructor; [exact I|]. constructor; [apply simple_good; [reflexivity|repeat constructor]|constructor].
  - intros [|[|[|[|j]]]] sq E; cbn [nth_error oneshot] in E; [| | | |destruct j; discriminate E]; try discriminate E;
      match type of E with Some (Some ?q) = _ => assert (sq = q) as -> by congruence end; (eexists; split; [reflexivity|discriminate]).
Qed.

(** * C118 *)

(** The values behind the sustained part. *)
Definition tail_values (osq : option sequence) : list Z :=
  match osq with
  | Some sq => match sq_values sq with VSimple vals => skipn (Z.to_nat (sq_sustainOffset sq + sq_sustainLength sq)) vals | VEnvelope _ => [] end
  | None => []
  end.
Definition tail_length (sqs : list (option sequence)) : nat := list_max (map (fun q => length (tail_values q)) sqs).
(** Value of slot [j] after [n] divided ticks since the release, if it was [w] before: the
    values behind the sustained part, of which the last one stays. *)
Definition slot_released (sqs : list (option sequence)) (w : nat -> Z) (n j : nat) : Z :=
  nth (Nat.min (Nat.pred n) (length (tail_values (nth j sqs None)) - 1)) (tail_values (nth j sqs None)) (w j).

Lemma tail_some sqs : tail_length sqs <> O -> exists j sq, nth_error sqs j = Some (Some sq) /\ length (tail_values (Some sq)) = tail_length sqs.
Proof.
  induction sqs as [|q sqs IH]; [cbn; congruence|]. intros N. change (tail_length (q :: sqs)) with (Nat.max (length (tail_values q)) (tail_length sqs)) in *.
  destruct (Nat.max_spec (length (tail_values q)) (tail_length sqs)) as [(L & M)|(L & M)]; rewrite M in *.
  - destruct (IH N) as (j & sq & E1 & E2). exists (S j), sq. auto.
  - destruct q as [sq|]; [|cbn in N; congruence]. exists O, sq. auto.
Qed.
Lemma tail_le sqs : forall j sq, nth_error sqs j = Some (Some sq) -> (length (tail_values (Some sq)) <= tail_length sqs)%nat.
Proof.
  induction sqs as [|q sqs IH]; intros [|j] sq E; cbn [nth_error] in E; try discriminate; change (tail_length (q :: sqs)) with (Nat.max (length (tail_values q)) (tail_length sqs)).
  - assert (q = Some sq) as -> by congruence. lia.
  - specialize (IH j sq E). lia.
Qed.

(** The note is released after [k] ticks.  It is silent at once if no sequence has values behind
    its sustained part, and as soon as the longest of these has been played; before that it
    sounds with these values. *)
Theorem C118_values fuel t id sqs size v k t3 m : reachable fuel t -> idle t -> sequences_ok fuel sqs -> value_sequences sqs -> other_instrument t id -> 0 <= v -> (1 <= k)%nat ->
  sung fuel t id sqs size v k t3 -> release_ok (tr_unit t3) -> ended sqs (divided (ds_divider (tr_instrDiv t)) k) = false ->
  let d := ds_divider (tr_instrDiv t) in let n := (divided d (k + m) - divided d k)%nat in
  exists t4 t5, BKTrackSetAttr fuel t3 BK_NOTE BK_NOTE_RELEASE = Ok (t4, 0) /\ BKTrackGetAttr t4 BK_NOTE = Ok (0, Some (-1)) /\ ticks fuel m t4 = Ok t5 /\
    if (tail_length sqs =? 0)%nat || (tail_length sqs <? n)%nat then BKTrackGetAttr t5 BK_MUTE <> Ok (0, Some 0)
    else BKTrackGetAttr t5 BK_MUTE = Ok (0, Some 0) /\ ((1 <= m)%nat -> heard_with t v (slot_released sqs (slot_heard sqs (Z.to_nat (Z.of_nat (k - 1) / d))) n) t5).
Proof.
  intros HR HI HQ HH NS HV HK SU RO EE d. destruct (begun fuel t id sqs size v k HR HI HQ HH NS HV HK) as (t3' & SU' & HD & K). rewrite EE in K. destruct K as (VO & SE & HE & MU & PH & X). fold d in HD, VO, X.
  assert (t3' = t3) as ->. { destruct SU as (a & b & A1 & A2 & A3). destruct SU' as (a' & b' & B1 & B2 & B3). assert (a' = a) as -> by congruence. assert (b' = b) as -> by congruence. congruence. }
  clear SU SU'. set (w := slot_heard sqs (Z.to_nat (Z.of_nat (k - 1) / d))) in *.
  destruct (voice_release fuel sqs d k _ t3 VO PH RO) as (t4 & E4 & C4 & K4). set (sts := phased fuel sqs 2 (is_states (tr_istate t3))) in *.
  destruct (voice_length _ _ _ _ _ _ VO) as (L1 & L2).
  assert (RB : forall j sq i, nth_error sqs j = Some (Some sq) -> exists st, nth_error (played fuel sqs (beats d k i) sts) j = Some st /\
    let n := (divided d (k + i) - divided d k)%nat in
    doneb st = (length (tail_values (Some sq)) =? 0)%nat || (length (tail_values (Some sq)) <? n)%nat /\ st_value st = slot_released sqs w n j).
  { intros j sq i EJ. assert (HJ : (j < 4)%nat) by (rewrite <- L1; apply nth_error_Some; congruence). destruct (X j HJ) as (st & ES & EV).
    destruct (slot_wf fuel sqs j sq HQ HH EJ) as (vals & so & sl & QV & W & BO). pose proof W as (_ & W2 & W3 & _).
    destruct (release_begin vals sq so sl W QV fuel st) as (st' & ER & RS & RV).
    destruct (release_beats vals sq so sl QV W fuel d (st_value st) k st' ltac:(lia) RS RV i) as (RS' & RV').
    assert (ET : tail_values (Some sq) = skipn (so + sl) vals) by (unfold tail_values; rewrite QV, W2, W3, <- Nat2Z.inj_add, Nat2Z.id; reflexivity).
    exists (slot_run fuel (Some sq) (beats d k i) st'). split.
    - apply played_slot; [exact EJ|]. unfold sts. rewrite (phased_slot fuel 2 sqs _ j (Some sq) st EJ ES). unfold phase_slot. cbn [fst snd]. rewrite ER. reflexivity.
    - cbv zeta. rewrite ET. split; [rewrite (release_done vals sq so sl W _ _ _ RS'), skipn_length; reflexivity|].
      rewrite RV', (release_tail vals sq so sl W). unfold slot_released. rewrite (nth_error_nth _ _ None EJ), ET, EV. reflexivity. }
  assert (UN : forall i, let n := (divided d (k + i) - divided d k)%nat in
    unfinished sqs (played fuel sqs (beats d k i) sts) = 0 <-> (tail_length sqs =? 0)%nat || (tail_length sqs <? n)%nat = true).
  { intros i n. split.
    - intros U. destruct ((tail_length sqs =? 0)%nat || (tail_length sqs <? n)%nat) eqn:B; [reflexivity|exfalso]. apply orb_false_iff in B. destruct B as (B1 & B2). apply Nat.eqb_neq in B1.
      destruct (tail_some sqs B1) as (j & sq & EJ & ET). destruct (RB j sq i EJ) as (st & ES & DB & _). fold n in DB. rewrite ET, B2 in DB. apply Nat.eqb_neq in B1. rewrite B1 in DB.
      pose proof (unfinished_pos _ _ _ _ _ EJ ES DB). lia.
    - intros B. apply unfinished_zero. intros j sq st EJ ES. destruct (RB j sq i EJ) as (st' & ES' & DB & _). assert (st' = st) as -> by congruence. fold n in DB. rewrite DB.
      pose proof (tail_le sqs j sq EJ) as TL. apply orb_true_iff in B. apply orb_true_iff. destruct B as [B|B]; [left; apply Nat.eqb_eq; apply Nat.eqb_eq in B; lia|right; apply Nat.ltb_lt; apply Nat.ltb_lt in B; lia]. }
  pose proof (UN O) as U0. cbv zeta in U0. change (played fuel sqs (beats d k 0) sts) with sts in U0. rewrite Nat.add_0_r, Nat.sub_diag in U0.
  assert (NZ : (tail_length sqs <? 0)%nat = false) by (apply Nat.ltb_ge; lia). rewrite NZ, orb_false_r in U0.
  assert (S4 : BKTrackSetAttr fuel t3 BK_NOTE BK_NOTE_RELEASE = Ok (t4, 0)) by (unfold BKTrackSetAttr; rewrite E4; reflexivity).
  assert (G4 : BKTrackGetAttr t4 BK_NOTE = Ok (0, Some (-1))) by (change (@Ok (Z * option Z) (0, Some (tr_curNote t4)) = Ok (0, Some (-1))); rewrite C4; reflexivity).
  cbv zeta. destruct (Z.eqb_spec (unfinished sqs sts) 0) as [UZ|UZ].
  - assert (H4 : track_ok fuel t4).
    { destruct (set_note_ok fuel t3 BK_NOTE_RELEASE (vo_ok _ _ _ _ _ _ VO) ltac:(intros _; exact RO)) as (ta & Ea & Ha). assert (ta = t4) as -> by congruence. exact Ha. }
    destruct (ticks_silent fuel m t4 H4 K4) as (t5 & E5 & _ & S5). exists t4, t5. split; [exact S4|]. split; [exact G4|]. split; [exact E5|].
    apply U0 in UZ. rewrite UZ. cbn [orb]. rewrite mute_attr. unfold silent in S5. congruence.
  - destruct K4 as (V4 & SE4 & MU4 & PH4 & IS4). set (n := (divided d (k + m) - divided d k)%nat).
    destruct ((tail_length sqs =? 0)%nat || (tail_length sqs <? n)%nat) eqn:B.
    + destruct (voice_ends fuel sqs d k _ t4 m HD V4) as (t5 & E5 & S5).
      { rewrite IS4. pose proof (unfinished_nonneg sqs sts). lia. } { rewrite IS4. apply UN. exact B. }
      exists t4, t5. split; [exact S4|]. split; [exact G4|]. split; [exact E5|]. rewrite mute_attr. unfold silent in S5. congruence.
    + destruct (voice_ticks fuel sqs d k _ m t4 HD V4) as (t5 & E5 & V5 & SE5 & MU5 & _ & S5 & HE5).
      { intros i Hi. rewrite IS4. apply andb_false_iff. right. apply Z.eqb_neq. intros C. apply UN in C. apply orb_false_iff in B. destruct B as (B1 & B2). rewrite B1 in C. cbn [orb] in C.
        pose proof (divided_mono d (k + S i) (k + m) ltac:(lia) ltac:(lia)). apply Nat.ltb_lt in C. apply Nat.ltb_ge in B2. unfold n in B2. lia. }
      exists t4, t5. split; [exact S4|]. split; [exact G4|]. split; [exact E5|]. split; [rewrite mute_attr, MU5, MU4, MU; reflexivity|].
      intros HM. apply (voice_with _ _ _ _ _ _ _ _ V5 (settings_trans _ _ _ SE (settings_trans _ _ _ SE4 SE5)) (HE5 HM)).
      intros j HJ. destruct (nth_error sqs j) as [[sq|]|] eqn:EJ; [| |apply nth_error_None in EJ; lia].
      * destruct (RB j sq m EJ) as (st & ES & _ & EV). exists st. split; [rewrite S5, IS4; exact ES|exact EV].
      * destruct (X j HJ) as (st0 & ES0 & EV0).
        destruct (nth_error sequenceDefaultValue j) as [dj|] eqn:EDJ; [|apply nth_error_None in EDJ; cbn in EDJ; lia].
        destruct (vo_empty _ _ _ _ _ _ V5 j dj EJ EDJ) as (st & ET & EV). exists st. split; [exact ET|].
        destruct (vo_empty _ _ _ _ _ _ VO j dj EJ EDJ) as (st1 & ET1 & EV1). assert (st1 = st0) as -> by congruence.
        unfold slot_released. rewrite (nth_error_nth _ _ None EJ). cbn [tail_values length Nat.sub]. rewrite Nat.min_0_r. cbn [nth]. congruence.
Qed.

(** A volume which is held at a half and then falls to a quarter and an eighth, two ticks each,
    while there is no other sequence. *)
Definition fading : list (option sequence) := [Some (BKSequenceFuncSimpleCreate [32767; 16384; 8192; 4096] 1 1); None; None; None].
Lemma fading_ok : sequences_ok 1000 fading /\ value_sequences fading /\ tail_length fading = 2%nat.
Proof.
  split; [|split; [|reflexivity]].
  - unfold sequences_ok, fading, slot_ranges. constructor; [apply simple_good; [reflexivity|repeat constructor]|]. repeat (constructor; [exact I|]). constructor.
  - intros [|[|[|[|j]]]] sq E; cbn [nth_error fading] in E; [| | | |destruct j; discriminate E]; try discriminate E.
    match type of E with Some (Some ?q) = _ => assert (sq = q) as -> by congruence end. eexists. split; [reflexivity|discriminate].
Qed.
Definition fading_track : res track :=
  let* (t1, _) := BKTrackSetPtr 1000 (track_after BK_SQUARE silent_ops) BK_INSTRUMENT (TInstr 1 fading) 8 in
  let* (t2, _) := BKTrackSetAttr 1000 t1 BK_NOTE 50331648 in ticks 1000 4 t2.
Lemma fading_sung : exists t3, sung 1000 (track_after BK_SQUARE silent_ops) 1 fading 8 50331648 4 t3 /\ release_ok (tr_unit t3).
Proof.
  destruct idle_reachable as (R & I & N & D). destruct fading_ok as (Q & V & _).
  destruct (C117_values 1000 _ 1 fading 8 50331648 4 R I Q V) as (t3 & E & _); [unfold other_instrument; rewrite N; exact Logic.I|lia|lia|].
  exists t3. split; [exact E|]. destruct E as (t1 & t2 & E1 & E2 & E3).
  assert (F : fading_track = Ok t3) by (unfold fading_track; rewrite E1; cbn [bind]; rewrite E2; exact E3).
  assert (S : match fading_track with Ok t => un_sustain (tr_unit t) | Err _ => true end = false) by (vm_compute; reflexivity).
  rewrite F in S. intros C. congruence.
Qed.
(** Released after four ticks, it is at a quarter in the next tick and silent in the fifth. *)
Example fading_heard : exists t3 t4 t5 t6 l, sung 1000 (track_after BK_SQUARE silent_ops) 1 fading 8 50331648 4 t3 /\ BKTrackSetAttr 1000 t3 BK_NOTE BK_NOTE_RELEASE = Ok (t4, 0) /\
  ticks 1000 1 t4 = Ok t5 /\ volumes t5 l /\ lv_instr l = Some (8192, 0) /\ ticks 1000 5 t4 = Ok t6 /\ BKTrackGetAttr t6 BK_MUTE <> Ok (0, Some 0).
Proof.
  destruct idle_reachable as (R & I & N & D). destruct fading_ok as (Q & V & TL). destruct fading_sung as (t3 & SU & RO).
  assert (OI : other_instrument (track_after BK_SQUARE silent_ops) 1) by (unfold other_instrument; rewrite N; exact Logic.I).
  assert (EE : ended fading (divided (ds_divider (tr_instrDiv (track_after BK_SQUARE silent_ops))) 4) = false) by (rewrite D; reflexivity).
  pose proof (C118_values 1000 _ 1 fading 8 50331648 4 t3 1 R I Q V OI ltac:(lia) ltac:(lia) SU RO EE) as (t4 & t5 & E4 & _ & E5 & K5).
  pose proof (C118_values 1000 _ 1 fading 8 50331648 4 t3 5 R I Q V OI ltac:(lia) ltac:(lia) SU RO EE) as (t4' & t6 & E4' & _ & E6 & K6).
  assert (t4' = t4) as -> by congruence. rewrite D, TL in K5, K6.
  change ((2 =? 0)%nat || (2 <? divided 2 (4 + 1) - divided 2 4)%nat) with false in K5. change ((2 =? 0)%nat || (2 <? divided 2 (4 + 5) - divided 2 4)%nat) with true in K6. cbv iota in K5, K6.
  destruct K5 as (_ & K5). destruct (K5 ltac:(lia)) as (_ & (l & L & VL & _) & _). exists t3, t4, t5, t6, l. split; [exact SU|]. split; [exact E4|]. split; [exact E5|]. split; [exact VL|].
  destruct L as (_ & _ & _ & _ & _ & L & _). split; [exact L|]. split; [exact E6|exact K6].
Qed.

Print Assumptions C117_values.
Print Assumptions C118_values.
