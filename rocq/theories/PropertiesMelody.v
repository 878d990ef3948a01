(** Properties of melodies which are played on a track with an instrument: C119. *)
From Verif Require Import CInt CIntFacts DataModel UnitModel UnitSpec UnitProofs UnitProofs2 UnitInv UnitInv2 UnitInv3
  InterpModel SlideIn ToneModel PropertiesTone SequenceModel SequenceSpec SequenceProofs InstrumentProofs InstrBounds
  TrackModel TrackSpec TrackInv TrackProofs TrackProofs2 TrackProofs3 TrackProofs4 TrackVolume TrackPlay TrackTicks TrackNote TrackAttrs TrackInstr TrackInstr2 TrackInstr3 TrackInstr4 TrackInstr5
  TrackMelody TrackMelody2 TrackMelody3 TrackMelody4 PropertiesTrack PropertiesInstr.
Ltac Zify.zify_post_hook ::= idtac.
Local Notation ticked := SequenceSpec.ticked.
Local Notation played := SequenceSpec.played.

(** * C119 *)

(** A note is set, released or muted, or a tick passes. *)
Inductive event := Key (v : Z) | Up | Cut | Tick.
Definition did (fuel : nat) (e : event) (t t' : track) : Prop :=
  match e with
  | Key v => BKTrackSetAttr fuel t BK_NOTE v = Ok (t', 0)
  | Up => BKTrackSetAttr fuel t BK_NOTE BK_NOTE_RELEASE = Ok (t', 0)
  | Cut => BKTrackSetAttr fuel t BK_NOTE BK_NOTE_MUTE = Ok (t', 0)
  | Tick => BKTrackTick fuel t = Ok t'
  end.
Fixpoint performed (fuel : nat) (es : list event) (t t' : track) : Prop :=
  match es with
  | [] => t' = t
  | e :: es => exists t1, did fuel e t t1 /\ performed fuel es t1 t'
  end.
Definition playable (e : event) : Prop := match e with Key v => 0 <= v | _ => True end.

(** A player which knows only the note, whether it is held or was released and when, and how
    many ticks have passed since it was struck. *)
Inductive mode := Silent | Held | Released (since : nat).
Record player := mk_player { pl_note : Z; pl_mode : mode; pl_ticks : nat }.
Definition nobody : player := mk_player 0 Silent 0.
Definition player_step (sqs : list (option sequence)) (d : Z) (p : player) (e : event) : player :=
  match e, pl_mode p with
  | Key v, Held => mk_player v Held (pl_ticks p)
  | Key v, _ => mk_player v Held 0
  | Up, Held => mk_player (pl_note p) (if (tail_length sqs =? 0)%nat then Silent else Released (pl_ticks p)) (pl_ticks p)
  | Up, _ => p
  | Cut, _ => mk_player (pl_note p) Silent (pl_ticks p)
  | Tick, m =>
    let j := S (pl_ticks p) in
    mk_player (pl_note p)
      match m with
      | Silent => Silent
      | Held => if ended sqs (divided d j) then Silent else Held
      | Released j0 => if (tail_length sqs <? divided d j - divided d j0)%nat then Silent else Released j0
      end j
  end.
Definition player_after (sqs : list (option sequence)) (d : Z) (es : list event) : player := fold_left (player_step sqs d) es nobody.
(** The values of the slots. *)
Definition held_values (sqs : list (option sequence)) (d : Z) (j : nat) : nat -> Z := slot_heard sqs (Z.to_nat (Z.of_nat (j - 1) / d)).
Definition player_values (sqs : list (option sequence)) (d : Z) (p : player) : nat -> Z :=
  match pl_mode p with
  | Released j0 => slot_released sqs (held_values sqs d j0) (divided d (pl_ticks p) - divided d j0)
  | _ => held_values sqs d (pl_ticks p)
  end.

Section Player.
Context (fuel : nat) (sqs : list (option sequence)) (d : Z).
Hypothesis HD : 1 <= d < 2147483648.
Hypothesis HQ : sequences_ok fuel sqs.
Hypothesis HH : value_sequences sqs.

(** ** A held note *)

Lemma held_slot sts j sq k : Forall2 (slot_ok fuel) sqs sts -> nth_error sqs j = Some (Some sq) ->
  exists st, nth_error (played fuel sqs (beats d 0 k) (phased fuel sqs 1 sts)) j = Some (slot_at fuel sq d k st).
Proof.
  intros F2 EJ. destruct (nth_error sts j) as [st|] eqn:ET.
  - exists st. unfold slot_at. apply played_slot; [exact EJ|]. apply phased_slot; assumption.
  - exfalso. apply nth_error_None in ET. assert (j < length sqs)%nat by (apply nth_error_Some; congruence). rewrite (Forall2_length _ _ _ F2) in *. lia.
Qed.
Lemma held_unfinished sts k : Forall2 (slot_ok fuel) sqs sts ->
  unfinished sqs (played fuel sqs (beats d 0 k) (phased fuel sqs 1 sts)) = 0 <-> forallb (slot_ended (divided d k)) sqs = true.
Proof.
  intros F2. rewrite forallb_forall. split.
  - intros U [q|] I; [|reflexivity]. apply In_nth_error in I. destruct I as (j & EJ). destruct (held_slot sts j q k F2 EJ) as (st & EN). destruct (slot_run_values fuel sqs d j q st k ltac:(lia) HQ HH EJ) as (D & _).
    rewrite <- D. destruct (doneb _) eqn:DB; [reflexivity|]. pose proof (unfinished_pos _ _ _ _ _ EJ EN DB). lia.
  - intros A. apply unfinished_zero. intros j q st EJ EN. destruct (held_slot sts j q k F2 EJ) as (st' & EN'). assert (st = slot_at fuel q d k st') as -> by congruence.
    destruct (slot_run_values fuel sqs d j q st' k ltac:(lia) HQ HH EJ) as (-> & _). apply A. apply (nth_error_In _ _ EJ).
Qed.
Lemma held_value j sq st k : nth_error sqs j = Some (Some sq) -> st_value (slot_at fuel sq d k st) = held_values sqs d k j.
Proof.
  intros EJ. destruct k as [|k]; [|apply (proj2 (slot_run_values fuel sqs d j sq st (S k) ltac:(lia) HQ HH EJ)); lia].
  destruct (slot_wf fuel sqs j sq HQ HH EJ) as (vals & so & sl & EV & W & BO). destruct (attack_begin vals sq so sl W EV fuel st BO) as (st' & E & _ & V).
  unfold slot_at, phase_slot. cbn [fst snd beats seq map]. rewrite E. change (st_value st' = held_values sqs d 0 j). rewrite V.
  unfold held_values. cbn [Nat.sub Z.of_nat]. rewrite Z.div_0_l by lia. unfold slot_heard. rewrite (nth_error_nth _ _ None EJ), EV.
  change (Z.to_nat 0) with O. unfold attack_index.
  match goal with |- context [Nat.min ?x _] => assert (x = O) as -> end.
  { destruct (Nat.ltb_spec 0 (Z.to_nat (sq_sustainOffset sq) + Z.to_nat (sq_sustainLength sq))) as [L|L]; [reflexivity|].
    replace (Z.to_nat (sq_sustainOffset sq)) with O by lia. apply Nat.mod_0_l. lia. }
  destruct vals; [cbn in BO; lia|reflexivity].
Qed.
Lemma held_all sts k note t : voice fuel sqs d k note t -> Forall2 (slot_ok fuel) sqs sts -> is_states (tr_istate t) = played fuel sqs (beats d 0 k) (phased fuel sqs 1 sts) ->
  forall j, (j < 4)%nat -> exists st, nth_error (is_states (tr_istate t)) j = Some st /\ st_value st = held_values sqs d k j.
Proof.
  intros VO F2 ES j HJ. destruct (voice_length _ _ _ _ _ _ VO) as (L1 & L2). destruct (nth_error sqs j) as [[sq|]|] eqn:EJ.
  - destruct (held_slot sts j sq k F2 EJ) as (st & EN). exists (slot_at fuel sq d k st). split; [rewrite ES; exact EN|]. exact (held_value j sq st k EJ).
  - unfold held_values, slot_heard. rewrite (nth_error_nth _ _ None EJ). destruct (nth_error sequenceDefaultValue j) as [dj|] eqn:EDJ; [|apply nth_error_None in EDJ; cbn in EDJ; lia].
    destruct (vo_empty _ _ _ _ _ _ VO j dj EJ EDJ) as (st & ET & EV). exists st. split; [exact ET|]. rewrite EV. symmetry. exact (nth_error_nth _ _ 0 EDJ).
  - apply nth_error_None in EJ. lia.
Qed.

(** ** A released note *)

Definition had (w : nat -> Z) (s0 : list sstate) : Prop := forall j, (j < 4)%nat -> exists st, nth_error s0 j = Some st /\ st_value st = w j.
Lemma released_slot w s0 k j sq i : had w s0 -> length sqs = 4%nat -> nth_error sqs j = Some (Some sq) ->
  exists st, nth_error (played fuel sqs (beats d k i) (phased fuel sqs 2 s0)) j = Some st /\
    let n := (divided d (k + i) - divided d k)%nat in
    doneb st = (length (tail_values (Some sq)) =? 0)%nat || (length (tail_values (Some sq)) <? n)%nat /\ st_value st = slot_released sqs w n j.
Proof.
  intros X L1 EJ. assert (HJ : (j < 4)%nat) by (rewrite <- L1; apply nth_error_Some; congruence). destruct (X j HJ) as (st & ES & EV).
  destruct (slot_wf fuel sqs j sq HQ HH EJ) as (vals & so & sl & QV & W & BO). pose proof W as (_ & W2 & W3 & _).
  destruct (release_begin vals sq so sl W QV fuel st) as (st' & ER & RS & RV).
  destruct (release_beats vals sq so sl QV W fuel d (st_value st) k st' ltac:(lia) RS RV i) as (RS' & RV').
  assert (ET : tail_values (Some sq) = skipn (so + sl) vals) by (unfold tail_values; rewrite QV, W2, W3, <- Nat2Z.inj_add, Nat2Z.id; reflexivity).
  exists (slot_run fuel (Some sq) (beats d k i) st'). split.
  - apply played_slot; [exact EJ|]. rewrite (phased_slot fuel 2 sqs _ j (Some sq) st EJ ES). unfold phase_slot. cbn [fst snd]. rewrite ER. reflexivity.
  - cbv zeta. rewrite ET. split; [rewrite (release_done vals sq so sl W _ _ _ RS'), skipn_length; reflexivity|].
    rewrite RV', (release_tail vals sq so sl W). unfold slot_released. rewrite (nth_error_nth _ _ None EJ), ET, EV. reflexivity.
Qed.
Lemma released_unfinished w s0 k i : had w s0 -> length sqs = 4%nat -> let n := (divided d (k + i) - divided d k)%nat in
  unfinished sqs (played fuel sqs (beats d k i) (phased fuel sqs 2 s0)) = 0 <-> (tail_length sqs =? 0)%nat || (tail_length sqs <? n)%nat = true.
Proof.
  intros X L1 n. split.
  - intros U. destruct ((tail_length sqs =? 0)%nat || (tail_length sqs <? n)%nat) eqn:B; [reflexivity|exfalso]. apply orb_false_iff in B. destruct B as (B1 & B2). apply Nat.eqb_neq in B1.
    destruct (tail_some sqs B1) as (j & sq & EJ & ET). destruct (released_slot w s0 k j sq i X L1 EJ) as (st & ES & DB & _). fold n in DB. rewrite ET, B2 in DB. apply Nat.eqb_neq in B1. rewrite B1 in DB.
    pose proof (unfinished_pos _ _ _ _ _ EJ ES DB). lia.
  - intros B. apply unfinished_zero. intros j sq st EJ ES. destruct (released_slot w s0 k j sq i X L1 EJ) as (st' & ES' & DB & _). assert (st' = st) as -> by congruence. fold n in DB. rewrite DB.
    pose proof (tail_le sqs j sq EJ) as TL. apply orb_true_iff in B. apply orb_true_iff. destruct B as [B|B]; [left; apply Nat.eqb_eq; apply Nat.eqb_eq in B; lia|right; apply Nat.ltb_lt; apply Nat.ltb_lt in B; lia].
Qed.
Lemma released_all w s0 j0 i note t : voice fuel sqs d (j0 + i) note t -> had w s0 -> defaulted sqs s0 -> is_states (tr_istate t) = played fuel sqs (beats d j0 i) (phased fuel sqs 2 s0) ->
  had (slot_released sqs w (divided d (j0 + i) - divided d j0)) (is_states (tr_istate t)).
Proof.
  intros VO X DF ES j HJ. destruct (voice_length _ _ _ _ _ _ VO) as (L1 & L2). destruct (nth_error sqs j) as [[sq|]|] eqn:EJ; [| |apply nth_error_None in EJ; lia].
  - destruct (released_slot w s0 j0 j sq i X L1 EJ) as (st & EN & _ & EV). exists st. split; [rewrite ES; exact EN|exact EV].
  - destruct (X j HJ) as (st0 & ES0 & EV0).
    destruct (nth_error sequenceDefaultValue j) as [dj|] eqn:EDJ; [|apply nth_error_None in EDJ; cbn in EDJ; lia].
    destruct (vo_empty _ _ _ _ _ _ VO j dj EJ EDJ) as (st & ET & EV). exists st. split; [exact ET|].
    destruct (DF j dj EJ EDJ) as (st1 & ET1 & EV1). assert (st1 = st0) as -> by congruence.
    unfold slot_released. rewrite (nth_error_nth _ _ None EJ). cbn [tail_values length Nat.sub]. rewrite Nat.min_0_r. cbn [nth]. congruence.
Qed.

(** ** The track does what the player does *)

Definition rep (t0 : track) (p : player) (t : track) : Prop :=
  ready fuel sqs d t /\ settings t0 t /\
  match pl_mode p with
  | Silent => silent t /\ tr_curNote t = -1
  | Held => un_mute (tr_unit t) = 0 /\ (tr_curNote t <> -1 /\ tr_curNote t = Z.min (pl_note p) MAX_NOTE) /\ voice fuel sqs d (pl_ticks p) (Z.min (pl_note p) MAX_NOTE) t /\ is_phase (tr_istate t) = 1 /\
      ended sqs (divided d (pl_ticks p)) = false /\
      exists sts, Forall2 (slot_ok fuel) sqs sts /\ is_states (tr_istate t) = played fuel sqs (beats d 0 (pl_ticks p)) (phased fuel sqs 1 sts)
  | Released j0 => un_mute (tr_unit t) = 0 /\ tr_curNote t = -1 /\ voice fuel sqs d (pl_ticks p) (Z.min (pl_note p) MAX_NOTE) t /\ is_phase (tr_istate t) = 2 /\
      exists i s0, pl_ticks p = (j0 + i)%nat /\ had (held_values sqs d j0) s0 /\ defaulted sqs s0 /\
        is_states (tr_istate t) = played fuel sqs (beats d j0 i) (phased fuel sqs 2 s0) /\
        (tail_length sqs =? 0)%nat || (tail_length sqs <? divided d (j0 + i) - divided d j0)%nat = false
  end.

Lemma beats_1 j sts : played fuel sqs (beats d j 1) sts = ticked fuel sqs (if Z.of_nat j mod d =? 0 then 1 else 0) sts.
Proof. rewrite (played_S fuel sqs d j 0), Nat.add_0_r. reflexivity. Qed.
Lemma ended_0 : ended sqs (divided d 0) = false.
Proof.
  destruct (ended sqs (divided d 0)) eqn:EE; [exfalso|reflexivity]. unfold ended in EE. apply andb_true_iff in EE. destruct EE as (X & C). apply existsb_exists in X. destruct X as ([q|] & I & XT); [|discriminate XT].
  rewrite forallb_forall in C. specialize (C _ I). apply In_nth_error in I. destruct I as (j & EJ). destruct (slot_wf fuel sqs j q HQ HH EJ) as (vals & so & sl & _ & (W1 & _) & LP).
  rewrite divided_0 in C by lia. unfold slot_ended in C. apply andb_true_iff in C. destruct C as (_ & C). rewrite W1 in C. lia.
Qed.

Lemma rep_key t0 p t v : rep t0 p t -> 0 <= v -> exists t', BKTrackSetNote fuel t v = Ok t' /\ rep t0 (player_step sqs d p (Key v)) t'.
Proof.
  intros (RD & SE & K) HV.
  assert (NEW : tr_curNote t = -1 -> exists t', BKTrackSetNote fuel t v = Ok t' /\ rep t0 (mk_player v Held 0) t').
  { intros CU. destruct (ready_attack fuel sqs d t v RD CU HV) as (t' & sts & E & RD' & SE' & MU & CU' & VO & PH & ES & F2). exists t'. split; [exact E|]. split; [exact RD'|]. split; [exact (settings_trans _ _ _ SE SE')|].
    cbn [pl_mode pl_ticks pl_note]. split; [exact MU|]. split; [split; [rewrite CU'; unfold MAX_NOTE; lia|exact CU']|]. split; [exact VO|]. split; [exact PH|]. split; [exact ended_0|]. exists sts. auto. }
  unfold player_step. destruct (pl_mode p) eqn:EM.
  - apply NEW, K.
  - destruct K as (MU & CU & VO & PH & EE & sts & F2 & ES). destruct (ready_legato fuel sqs d t v RD (proj1 CU) HV) as (t' & E & RD' & SE' & MU' & CU' & G' & IS' & DI'). exists t'. split; [exact E|].
    split; [exact RD'|]. split; [exact (settings_trans _ _ _ SE SE')|]. cbn [pl_mode pl_ticks pl_note]. split; [exact MU'|]. split; [split; [rewrite CU'; unfold MAX_NOTE; lia|exact CU']|].
    split; [apply ready_voice; [exact RD'|rewrite IS'; exact (vo_playing _ _ _ _ _ _ VO)|rewrite DI'; exact (vo_div _ _ _ _ _ _ VO)|exact G']|]. rewrite IS'. split; [exact PH|]. split; [exact EE|]. exists sts. auto.
  - apply NEW, K.
Qed.
Lemma rep_cut t0 p t : rep t0 p t -> exists t', BKTrackSetNote fuel t BK_NOTE_MUTE = Ok t' /\ rep t0 (player_step sqs d p Cut) t'.
Proof.
  intros (RD & SE & K). destruct (ready_mute fuel sqs d t RD) as (t' & E & RD' & SE' & SI & CU). exists t'. split; [exact E|]. split; [exact RD'|]. split; [exact (settings_trans _ _ _ SE SE')|]. cbn. auto.
Qed.
Lemma rep_up t0 p t : rep t0 p t -> exists t', BKTrackSetNote fuel t BK_NOTE_RELEASE = Ok t' /\ rep t0 (player_step sqs d p Up) t'.
Proof.
  intros (RD & SE & K). unfold player_step. destruct (pl_mode p) as [| |j0] eqn:EM.
  - destruct (ready_release fuel sqs d t RD) as (t' & E & RD' & SE' & CU & SI). exists t'. split; [exact E|]. split; [exact RD'|]. split; [exact (settings_trans _ _ _ SE SE')|]. rewrite EM. split; [apply SI, K|exact CU].
  - destruct K as (MU & CU & VO & PH & EE & sts & F2 & ES). destruct (ready_release fuel sqs d t RD) as (t' & E & RD' & SE' & CU' & _). exists t'. split; [exact E|]. split; [exact RD'|]. split; [exact (settings_trans _ _ _ SE SE')|].
    assert (RO : release_ok (tr_unit t)) by (intros C; rewrite (rd_sustain _ _ _ _ RD) in C; discriminate).
    destruct (voice_release fuel sqs d (pl_ticks p) _ t VO PH RO) as (t2 & E2 & _ & K2). assert (t2 = t') as -> by congruence. clear E2.
    pose proof (held_all sts (pl_ticks p) _ t VO F2 ES) as X. destruct (voice_length _ _ _ _ _ _ VO) as (L1 & _).
    pose proof (released_unfinished _ _ (pl_ticks p) 0 X L1) as U0. cbv zeta in U0. rewrite Nat.add_0_r, Nat.sub_diag in U0. change (tail_length sqs <? 0)%nat with false in U0. rewrite orb_false_r in U0.
    change (played fuel sqs (beats d (pl_ticks p) 0) (phased fuel sqs 2 (is_states (tr_istate t)))) with (phased fuel sqs 2 (is_states (tr_istate t))) in U0.
    cbn [pl_mode pl_ticks pl_note]. destruct (Z.eqb_spec (unfinished sqs (phased fuel sqs 2 (is_states (tr_istate t)))) 0) as [U|U].
    + apply U0 in U. rewrite U. auto.
    + destruct ((tail_length sqs =? 0)%nat) eqn:TL; [exfalso; apply U, U0; reflexivity|]. destruct K2 as (VO' & _ & MU' & PH' & ES').
      split; [congruence|]. split; [exact CU'|]. split; [exact VO'|]. split; [exact PH'|]. exists O, (is_states (tr_istate t)). split; [lia|]. split; [exact X|]. split; [exact (vo_empty _ _ _ _ _ _ VO)|].
      split; [exact ES'|]. rewrite Nat.add_0_r, Nat.sub_diag. reflexivity.
  - destruct K as (MU & CU & VO & PH & X). destruct (ready_again fuel sqs d t RD PH) as (t' & E & RD' & SE' & CU' & MU' & IS' & DI' & NO'). exists t'. split; [exact E|]. split; [exact RD'|]. split; [exact (settings_trans _ _ _ SE SE')|].
    rewrite EM. rewrite IS'. split; [congruence|]. split; [exact CU'|]. split; [|split; [exact PH|exact X]].
    apply ready_voice; [exact RD'|rewrite IS'; exact (vo_playing _ _ _ _ _ _ VO)|rewrite DI'; exact (vo_div _ _ _ _ _ _ VO)|rewrite NO'; exact (vo_note _ _ _ _ _ _ VO)].
Qed.
Lemma rep_tick t0 p t : rep t0 p t -> exists t', BKTrackTick fuel t = Ok t' /\ rep t0 (player_step sqs d p Tick) t' /\ heard t'.
Proof.
  intros (RD & SE & K). destruct (ready_tick fuel sqs d t RD) as (t' & E & RD' & SE' & CU & HE). exists t'. split; [exact E|]. split; [|exact HE]. split; [exact RD'|]. split; [exact (settings_trans _ _ _ SE SE')|].
  assert (TK : ticks fuel 1 t = Ok t') by (cbn [ticks]; rewrite E; reflexivity).
  unfold player_step. cbv zeta. cbn [pl_mode pl_ticks pl_note]. destruct (pl_mode p) as [| |j0] eqn:EM.
  - destruct K as (SI & C). split; [exact (tick_silent _ _ _ E SI)|]. destruct CU as [->| ->]; [exact C|reflexivity].
  - destruct K as (MU & C & VO & PH & EE & sts & F2 & ES). set (j := pl_ticks p) in *. set (X := phased fuel sqs 1 sts) in *.
    pose proof (played_S fuel sqs d 0 j X) as PS. cbn [Nat.add] in PS. rewrite <- ES in PS. pose proof (beats_1 j (is_states (tr_istate t))) as B1. rewrite <- PS in B1.
    pose proof (held_unfinished sts (S j) F2) as US. fold X in US. pose proof (held_unfinished sts j F2) as UJ. fold X in UJ. rewrite <- ES in UJ. pose proof (unfinished_nonneg sqs (is_states (tr_istate t))) as NN.
    destruct (ended sqs (divided d (S j))) eqn:ES'.
    + assert (EN : exists t2, BKTrackTick fuel t = Ok t2 /\ silent t2 /\ tr_curNote t2 = -1).
      { apply (ready_end fuel sqs d j _ t VO). rewrite (vo_div _ _ _ _ _ _ VO). destruct (div_count d j HD) as (_ & ->). rewrite <- PS. unfold ended in ES', EE. apply andb_true_iff in ES'. destruct ES' as (X1 & X2). rewrite X1 in EE. cbn [andb] in EE.
        apply US in X2. rewrite X2. rewrite andb_true_r. apply Z.ltb_lt. assert (unfinished sqs (is_states (tr_istate t)) <> 0) by (intros Q; apply UJ in Q; congruence). lia. }
      destruct EN as (t2 & E2 & S2 & C2). assert (t2 = t') as -> by congruence. auto.
    + assert (HU : forall i, (i < 1)%nat -> (0 <? unfinished sqs (played fuel sqs (beats d j i) (is_states (tr_istate t)))) && (unfinished sqs (played fuel sqs (beats d j (S i)) (is_states (tr_istate t))) =? 0) = false).
      { intros i Hi. replace i with O by lia. rewrite B1. apply andb_false_iff. destruct (any_or_none sqs) as [(m & sq & EM')|NO].
        - right. apply Z.eqb_neq. intros Q. apply US in Q. assert (ended sqs (divided d (S j)) = true); [|congruence].
          unfold ended. rewrite Q, andb_true_r. apply existsb_exists. exists (Some sq). split; [exact (nth_error_In _ _ EM')|reflexivity].
        - left. change (played fuel sqs (beats d j 0) (is_states (tr_istate t))) with (is_states (tr_istate t)). rewrite (unfinished_none sqs) by exact NO. reflexivity. }
      destruct (voice_ticks fuel sqs d j _ 1 t HD VO HU) as (t2 & E2 & V2 & _ & MU2 & PH2 & S2 & _).
      assert (t2 = t') as -> by congruence. rewrite Nat.add_1_r in V2. split; [congruence|]. split.
      { pose proof VO as [VH VSL VHE VHA VHC VT VPL VDV VNT VEM].
        destruct (instr_ticks fuel sqs d 1 HD j t VH VSL VHE VHA VHC VT VPL VDV HU) as (s2 & t3 & E3 & _ & M3 & _). assert (t3 = t') as -> by congruence. destruct M3 as (? & ? & ? & ? & ->). exact C. }
      split; [exact V2|]. split; [congruence|]. split; [reflexivity|]. exists sts. split; [exact F2|]. rewrite S2. exact B1.
  - destruct K as (MU & C & VO & PH & i & s0 & EJ & HW & DF & ES & TL). set (j := pl_ticks p) in *. rewrite EJ in *. clear j EJ.
    assert (CU' : tr_curNote t' = -1) by (destruct CU as [->| ->]; [exact C|reflexivity]). destruct (voice_length _ _ _ _ _ _ VO) as (L1 & _).
    set (X := phased fuel sqs 2 s0) in *. pose proof (played_S fuel sqs d j0 i X) as PS. rewrite <- ES in PS. pose proof (beats_1 (j0 + i) (is_states (tr_istate t))) as B1. rewrite <- PS in B1.
    pose proof (released_unfinished _ s0 j0 (S i) HW L1) as US. pose proof (released_unfinished _ s0 j0 i HW L1) as UI. cbv zeta in US, UI. fold X in US, UI. rewrite <- ES in UI. rewrite <- plus_n_Sm in US.
    pose proof (unfinished_nonneg sqs (is_states (tr_istate t))) as NN. pose proof TL as TL'. apply orb_false_iff in TL'. destruct TL' as (T0 & T1). rewrite T0 in US. cbn [orb] in US.
    assert (NZ : unfinished sqs (is_states (tr_istate t)) <> 0) by (intros Q; apply UI in Q; congruence).
    destruct (tail_length sqs <? divided d (S (j0 + i)) - divided d j0)%nat eqn:B.
    + assert (EN : exists t2, BKTrackTick fuel t = Ok t2 /\ silent t2 /\ tr_curNote t2 = -1).
      { apply (ready_end fuel sqs d (j0 + i) _ t VO). rewrite (vo_div _ _ _ _ _ _ VO). destruct (div_count d (j0 + i) HD) as (_ & ->). rewrite <- PS. rewrite (proj2 US eq_refl), andb_true_r. apply Z.ltb_lt. lia. }
      destruct EN as (t2 & E2 & S2 & C2). assert (t2 = t') as -> by congruence. auto.
    + destruct (voice_ticks fuel sqs d (j0 + i) _ 1 t HD VO) as (t2 & E2 & V2 & _ & MU2 & PH2 & S2 & _).
      { intros i' Hi. replace i' with O by lia. rewrite B1. apply andb_false_iff. right. apply Z.eqb_neq. intros Q. apply US in Q. congruence. }
      assert (t2 = t') as -> by congruence. rewrite Nat.add_1_r in V2. split; [congruence|]. split; [exact CU'|]. split; [exact V2|]. split; [congruence|].
      exists (S i), s0. split; [lia|]. split; [exact HW|]. split; [exact DF|]. split; [rewrite S2; exact B1|]. rewrite <- plus_n_Sm, T0, B. reflexivity.
Qed.
Lemma rep_run t0 es : Forall playable es -> forall p t, rep t0 p t -> exists t', performed fuel es t t' /\ rep t0 (fold_left (player_step sqs d) es p) t' /\ (es <> [] -> last es Cut = Tick -> heard t').
Proof.
  induction 1 as [|e es PE _ IH]; intros p t R; cbn [performed fold_left]; [exists t; split; [reflexivity|]; split; [exact R|congruence]|].
  assert (S1 : exists t1, did fuel e t t1 /\ rep t0 (player_step sqs d p e) t1 /\ (e = Tick -> heard t1)).
  { destruct e as [v| | |]; cbn [did playable] in *.
    - destruct (rep_key t0 p t v R PE) as (t1 & E & R1). exists t1. split; [unfold BKTrackSetAttr; rewrite E; reflexivity|]. split; [exact R1|discriminate].
    - destruct (rep_up t0 p t R) as (t1 & E & R1). exists t1. split; [unfold BKTrackSetAttr; rewrite E; reflexivity|]. split; [exact R1|discriminate].
    - destruct (rep_cut t0 p t R) as (t1 & E & R1). exists t1. split; [unfold BKTrackSetAttr; rewrite E; reflexivity|]. split; [exact R1|discriminate].
    - destruct (rep_tick t0 p t R) as (t1 & E & R1 & HE). exists t1. auto. }
  destruct S1 as (t1 & D1 & R1 & H1). destruct (IH _ t1 R1) as (t' & P' & R' & H'). exists t'. split; [exists t1; auto|]. split; [exact R'|]. intros _ L.
  destruct es as [|e' es]; [assert (t' = t1) as -> by exact P'; apply H1; exact L|]. apply H'; [discriminate|exact L].
Qed.
End Player.

(** An instrument with lists of values is set on a silent track, and notes are set, released and
    muted between ticks in any order.  The track sounds exactly when the player does, and after
    each tick it plays the note of the player with the values the sequences have then: a note
    which is set while another is held only changes the pitch, every other note begins the
    sequences again; releasing plays the values behind the sustained parts once. *)
Theorem C119_melody fuel t id sqs size es : reachable fuel t -> idle t -> BKTrackGetAttr t BK_MUTE <> Ok (0, Some 0) -> un_sustain (tr_unit t) = false ->
  sequences_ok fuel sqs -> value_sequences sqs -> other_instrument t id -> Forall playable es ->
  let d := ds_divider (tr_instrDiv t) in let p := player_after sqs d es in
  exists t1 t2, BKTrackSetPtr fuel t BK_INSTRUMENT (TInstr id sqs) size = Ok (t1, 0) /\ performed fuel es t1 t2 /\
    match pl_mode p with
    | Silent => BKTrackGetAttr t2 BK_MUTE <> Ok (0, Some 0) /\ BKTrackGetAttr t2 BK_NOTE = Ok (0, Some (-1))
    | m => BKTrackGetAttr t2 BK_MUTE = Ok (0, Some 0) /\ (last es Cut = Tick -> heard_with t (pl_note p) (player_values sqs d p) t2) /\
      BKTrackGetAttr t2 BK_NOTE = Ok (0, Some match m with Held => Z.min (pl_note p) MAX_NOTE | _ => -1 end)
    end.
Proof.
  intros HR (HC & HN & HE & HA & S0 & B0) HM SU HQ HH NS PE d p. pose proof (reachable_ok _ _ HR) as H.
  assert (ES : same_instr (Some (id, BKInstrumentUpdateNumSequences sqs)) (tr_instr t) = false).
  { unfold other_instrument in NS. cbn [same_instr]. destruct (tr_instr t) as [[id' i']|]; [apply Z.eqb_neq; exact NS|reflexivity]. }
  assert (SI : silent t) by (intros Q; apply HM; rewrite mute_attr, Q; reflexivity).
  destruct (ready_set fuel t id sqs H HQ HC ES HN HE HA S0 B0 SU SI) as (t1 & E1 & RD & SE & SI1 & CU1). fold d in RD.
  assert (HD : 1 <= d < 2147483648) by (unfold d; destruct (tk_instrDiv _ _ H) as (X & _); lia).
  destruct (rep_run fuel sqs d HD HQ HH t es PE nobody t1) as (t2 & P2 & R2 & H2); [split; [exact RD|]; split; [exact SE|]; split; assumption|].
  exists t1, t2. split; [unfold BKTrackSetPtr; rewrite E1; reflexivity|]. split; [exact P2|]. fold (player_after sqs d es) in R2. fold p in R2.
  assert (HL : last es Cut = Tick -> heard t2) by (intros L; apply H2; [intros ->; discriminate L|exact L]).
  assert (GN : BKTrackGetAttr t2 BK_NOTE = Ok (0, Some (tr_curNote t2))) by reflexivity.
  destruct R2 as (RD2 & SE2 & K). unfold player_values. destruct (pl_mode p) as [| |j0].
  - destruct K as (S2 & C2). rewrite mute_attr. unfold silent in S2. split; [congruence|]. rewrite GN, C2. reflexivity.
  - destruct K as (MU & CU & VO & PH & EE & sts & F2 & IS). split; [rewrite mute_attr, MU; reflexivity|]. split.
    + intros L. apply (voice_with _ _ _ _ _ _ _ _ VO SE2 (HL L)). exact (held_all fuel sqs d HD HQ HH sts (pl_ticks p) _ t2 VO F2 IS).
    + rewrite GN, (proj2 CU). reflexivity.
  - destruct K as (MU & CU & VO & PH & i & s0 & EJ & HW & DF & IS & TL). split; [rewrite mute_attr, MU; reflexivity|]. split; [|rewrite GN, CU; reflexivity].
    intros L. apply (voice_with _ _ _ _ _ _ _ _ VO SE2 (HL L)). rewrite EJ in *. exact (released_all fuel sqs d HD HQ HH _ s0 j0 i _ t2 VO HW DF IS).
Qed.

(** The volume falls to a half and is held there, two ticks each; behind it are a quarter and an
    eighth.  A note is played for two ticks, bound to another one, released in the fourth tick,
    and then struck again and muted. *)
Definition tune : list event := [Key 50331648; Tick; Tick; Key 62914560; Tick; Tick; Up; Tick].
Lemma tune_silent : BKTrackGetAttr (track_after BK_SQUARE silent_ops) BK_MUTE <> Ok (0, Some 0) /\ un_sustain (tr_unit (track_after BK_SQUARE silent_ops)) = false.
Proof. split; [rewrite mute_attr; vm_compute; discriminate|vm_compute; reflexivity]. Qed.
Example tune_player : player_after fading 2 [Key 50331648; Tick; Tick; Key 62914560; Tick] = mk_player 62914560 Held 3 /\
  player_after fading 2 tune = mk_player 62914560 (Released 4) 5 /\ player_values fading 2 (player_after fading 2 tune) 0%nat = 8192 /\
  pl_mode (player_after fading 2 (tune ++ [Tick; Tick; Tick; Tick])) = Silent /\
  player_after fading 2 (tune ++ [Key 1048576; Tick; Up; Up; Cut]) = mk_player 1048576 Silent 1.
Proof. repeat split; reflexivity. Qed.
Example tune_heard : exists t1 t2 l, BKTrackSetPtr 1000 (track_after BK_SQUARE silent_ops) BK_INSTRUMENT (TInstr 1 fading) 8 = Ok (t1, 0) /\ performed 1000 tune t1 t2 /\
  BKTrackGetAttr t2 BK_MUTE = Ok (0, Some 0) /\ unit_plays t2 62914560 /\ volumes t2 l /\ lv_instr l = Some (8192, 0).
Proof.
  destruct idle_reachable as (R & I & N & D). destruct fading_ok as (Q & V & TL). destruct tune_silent as (M & S0).
  destruct (C119_melody 1000 _ 1 fading 8 tune R I M S0 Q V) as (t1 & t2 & E1 & P2 & K).
  - unfold other_instrument. rewrite N. exact Logic.I.
  - unfold tune. repeat (apply Forall_cons; [cbn [playable]; first [exact Logic.I|lia]|]). apply Forall_nil.
  - rewrite D in K. destruct tune_player as (_ & ET & EV & _). rewrite ET in K, EV. cbn [pl_mode pl_note] in K. destruct K as (MU & K & _). destruct (K eq_refl) as (U & (l & L & VL & _) & _).
    exists t1, t2, l. split; [exact E1|]. split; [exact P2|]. split; [exact MU|]. split; [exact U|]. split; [exact VL|]. destruct L as (_ & _ & _ & _ & _ & L & _). rewrite L, EV. reflexivity.
Qed.

Print Assumptions C119_melody.
