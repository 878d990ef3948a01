(** Tracks: instruments, notes and ticks keep the invariant. *)
From Verif Require Import CInt CIntFacts DataModel UnitModel UnitSpec UnitProofs UnitProofs2 UnitInv UnitInv2 UnitInv3 UnitProofs5 UnitCount
  InterpModel InterpProofs IntervalProofs SlideIn ToneModel PropertiesTone SequenceModel SequenceSpec SequenceProofs InstrumentProofs InstrBounds
  TrackModel TrackSpec TrackInv TrackProofs TrackProofs2.
Ltac Zify.zify_post_hook ::= idtac.

Lemma istate_self t : t_istate t (tr_istate t) = t.
Proof. destruct t; reflexivity. Qed.

Lemma phase_plain_ok fuel t p : track_ok fuel t -> 0 <= p <= 2 ->
  exists s b, set_phase_plain fuel t p = Ok (t_istate t s, b) /\ track_ok fuel (t_istate t s) /\
    (b = true -> is_phase s = 0) /\ (is_phase (tr_istate t) = 0 -> p = 0 -> b = false) /\ (tr_instr t <> None -> p = 0 -> is_phase s = 0).
Proof.
  intros H HP. unfold set_phase_plain. destruct (tk_instr _ _ H) as (HS & sqs & F & EI). destruct (tr_instr t) as [[id i]|] eqn:E.
  - subst i. destruct (iphase fuel slot_ranges sqs (tr_istate t) p (sok_pre_all _ _ _ _ F) HP HS (fun _ => F)) as (s & -> & F' & B & P0 & M1 & M2).
    cbn [bind]. eexists _, _. split; [reflexivity|]. split.
    { apply ok_istate; [exact H|]. rewrite E. split; [exact B|]. exists sqs. auto. }
    split; [intros C; apply M1; intros C'; rewrite C', Z.eqb_refl in C; discriminate|]. split; [|auto].
    intros Z0 Z1. rewrite (M2 Z0 Z1), Z.eqb_refl. reflexivity.
  - exists (tr_istate t), false. rewrite istate_self. split; [reflexivity|]. split; [exact H|]. split; [discriminate|]. split; [reflexivity|congruence].
Qed.

Definition quiet (t : track) : Prop := is_phase (tr_istate t) = 0.

Lemma inner_ok fuel t : track_ok fuel t -> quiet t -> exists s, set_phase_inner fuel t 0 = Ok (t_istate t s) /\ track_ok fuel (t_istate t s) /\ (tr_instr t <> None -> is_phase s = 0).
Proof.
  intros H Q. unfold set_phase_inner. destruct (phase_plain_ok fuel t 0 H ltac:(lia)) as (s & b & -> & K & _ & N & P0).
  cbn [bind]. rewrite (N Q eq_refl). exists s. auto.
Qed.

(** What notes and instruments change: the unit, the marks of what it has to be told, the note
    and the state of the instrument. *)
Definition play (t t' : track) : Prop :=
  exists u a b c s n m, t' = t_unit (t_istate (t_curNote (t_note (t_flags t (fset (fset (fset (tr_flags t) FVolume a) FNote b) FDuty c)) n) m) s) u.
Lemma play_refl t : play t t.
Proof.
  exists (tr_unit t), (has t FVolume), (has t FNote), (has t FDuty), (tr_istate t), (tr_note t), (tr_curNote t). destruct t as [? ? ? f]. destruct f. reflexivity.
Qed.
Lemma play_trans t1 t2 t3 : play t1 t2 -> play t2 t3 -> play t1 t3.
Proof.
  intros (u & a & b & c & s & n & m & ->) (u' & a' & b' & c' & s' & n' & m' & ->). exists u', a', b', c', s', n', m'. reflexivity.
Qed.
Lemma play_unit t t' u : play t t' -> play t (t_unit t' u).
Proof. intros (v & a & b & c & s & n & m & ->). exists u, a, b, c, s, n, m. reflexivity. Qed.
Lemma play_istate t t' s : play t t' -> play t (t_istate t' s).
Proof. intros (v & a & b & c & s' & n & m & ->). exists v, a, b, c, s, n, m. reflexivity. Qed.
Lemma play_note t t' n : play t t' -> play t (t_note t' n).
Proof. intros (v & a & b & c & s & n' & m & ->). exists v, a, b, c, s, n, m. reflexivity. Qed.
Lemma play_curNote t t' m : play t t' -> play t (t_curNote t' m).
Proof. intros (v & a & b & c & s & n & m' & ->). exists v, a, b, c, s, n, m. reflexivity. Qed.
Lemma play_put t t' k x : play t t' -> k = FVolume \/ k = FNote \/ k = FDuty -> play t (put t' k x).
Proof.
  intros (v & a & b & c & s & n & m & ->) [-> |[-> | ->]]; [exists v, x, b, c, s, n, m|exists v, a, x, c, s, n, m|exists v, a, b, x, s, n, m]; reflexivity.
Qed.
Lemma marks_play t t' : marks t t' -> play t t'.
Proof. intros (u & a & b & c & ->). exists u, a, b, c, (tr_istate t), (tr_note t), (tr_curNote t). reflexivity. Qed.
Lemma play_instr t t' : play t t' -> tr_instr t' = tr_instr t.
Proof. intros (v & a & b & c & s & n & m & ->). reflexivity. Qed.
Lemma play_has t t' k : play t t' -> k <> FVolume -> k <> FNote -> k <> FDuty -> has t' k = has t k.
Proof. intros (v & a & b & c & s & n & m & ->). destruct k; try congruence; reflexivity. Qed.

Lemma flags_marks t all : marks t (BKTrackInstrumentUpdateFlags t all).
Proof.
  unfold BKTrackInstrumentUpdateFlags. cbv zeta.
  assert (K : forall t' k (b : bool), marks t t' -> k = FVolume \/ k = FNote \/ k = FDuty -> marks t (if b then put t' k true else t')) by (intros t' k b ? ?; destruct b; [apply marks_put|]; assumption).
  destruct all.
  - apply marks_put; [|auto]. apply marks_put; [|auto]. apply marks_put; [|auto]. apply marks_refl.
  - apply K; [|auto]. apply K; [|auto]. apply K; [|auto]. apply K; [apply marks_refl|auto].
Qed.

Lemma marks_unit_same t all : tr_unit (BKTrackInstrumentUpdateFlags t all) = tr_unit t.
Proof.
  unfold BKTrackInstrumentUpdateFlags. cbv zeta. destruct all; [reflexivity|].
  assert (K : forall t' k (b : bool), tr_unit (if b then put t' k true else t') = tr_unit t') by (intros ? ? [|]; reflexivity).
  rewrite !K. reflexivity.
Qed.

(** A step of a track that leaves what a release looks at. *)
Definition goes (fuel : nat) (t t' : track) : Prop := track_ok fuel t' /\ held (tr_unit t) (tr_unit t') /\ play t t'.
Lemma goes_refl fuel t : track_ok fuel t -> goes fuel t t.
Proof. intros H. split; [exact H|]. split; [apply held_refl|apply play_refl]. Qed.
Lemma goes_trans fuel t1 t2 t3 : goes fuel t1 t2 -> goes fuel t2 t3 -> goes fuel t1 t3.
Proof. intros (_ & A & B) (C & D & E). split; [exact C|]. split; [eapply held_trans; eassumption|eapply play_trans; eassumption]. Qed.
Lemma goes_flags fuel t all : track_ok fuel t -> goes fuel t (BKTrackInstrumentUpdateFlags t all).
Proof.
  intros H. split; [apply flags_ok; exact H|]. split; [rewrite marks_unit_same; apply held_refl|]. apply marks_play, flags_marks.
Qed.

Lemma note_mute_ok fuel t set_phase : track_ok fuel t ->
  (forall t1, track_ok fuel t1 -> tr_istate t1 = tr_istate t -> exists t2, set_phase t1 0 = Ok t2 /\ goes fuel t1 t2) ->
  exists t', set_note_mute set_phase t = Ok t' /\ goes fuel t t' /\ un_mute (tr_unit t') = 1.
Proof.
  intros H HS. unfold set_note_mute. cbv zeta.
  set (t1 := t_note (t_curNote t (-1)) (BKSlideStateHalt (tr_note (t_curNote t (-1))) true)).
  assert (G1 : goes fuel t t1).
  { split; [|split; [apply held_refl|apply play_note, play_curNote, play_refl]].
    apply ok_note; [apply ok_curNote; [exact H|unfold MAX_NOTE; lia]|]. apply in_halt. exact (tk_note _ _ H). }
  pose proof G1 as (H1 & _).
  assert (K : exists t2, (if has t1 FInstr then let* t := set_phase t1 BK_SEQUENCE_PHASE_MUTE in Ok (BKTrackInstrumentUpdateFlags t false) else Ok t1) = Ok t2 /\ goes fuel t1 t2).
  { destruct (has t1 FInstr); [|exists t1; split; [reflexivity|apply goes_refl; exact H1]].
    destruct (HS t1 H1 eq_refl) as (t2 & E2 & G2). unfold BK_SEQUENCE_PHASE_MUTE. rewrite E2. cbn [bind]. eexists. split; [reflexivity|].
    eapply goes_trans; [exact G2|]. apply goes_flags. apply G2. }
  destruct K as (t2 & -> & G2). cbn [bind]. pose proof G2 as (H2 & _).
  destruct (plain_attr_ok fuel t2 BK_MUTE 1 H2 ltac:(lia) ltac:(discriminate) ltac:(discriminate) ltac:(discriminate)) as (u3 & r3 & E3 & -> & H3). cbn [bind].
  destruct (mute_held _ _ _ _ E3) as (R3 & M3). change (if 1 =? 0 then 0 else 1) with 1 in M3.
  destruct (unit_attr_ok fuel (t_unit t2 u3) BK_FLAG_RELEASE 0 H3 ltac:(lia) ltac:(intros [C|C]; discriminate C) ltac:(intros; lia)) as (u4 & r4 & E4 & -> & H4). cbn [bind].
  destruct (release_held _ _ _ _ E4) as (R4 & M4). cbn [t_unit tr_unit] in R4, M4.
  eexists. split; [reflexivity|]. split; [|cbn [put t_flags t_unit tr_unit]; congruence].
  eapply goes_trans; [exact G1|]. eapply goes_trans; [exact G2|]. split; [apply ok_put; [exact H4|discriminate]|].
  split; [cbn [put t_flags t_unit tr_unit]; eapply held_trans; [exact R3|exact R4]|].
  apply play_put; [|auto]. apply play_unit, play_unit, play_refl.
Qed.

Lemma mute_event_ok fuel t : track_ok fuel t -> quiet t -> exists t', mute_event fuel t = Ok t' /\ goes fuel t t'.
Proof.
  intros H Q. unfold mute_event. destruct (note_mute_ok fuel t (set_phase_inner fuel) H) as (t' & E & G & _); [|exists t'; auto].
  intros t1 H1 E1. destruct (inner_ok fuel t1 H1) as (s & E & K & _). { unfold quiet in *. rewrite E1. exact Q. }
  eexists. split; [exact E|]. split; [exact K|]. split; [apply held_refl|apply play_istate, play_refl].
Qed.

Lemma set_phase_ok fuel t p : track_ok fuel t -> 0 <= p <= 2 -> exists t', track_set_phase fuel t p = Ok t' /\ goes fuel t t'.
Proof.
  intros H HP. unfold track_set_phase. destruct (phase_plain_ok fuel t p H HP) as (s & b & -> & K & B & _). cbn [bind].
  assert (G : goes fuel t (t_istate t s)) by (split; [exact K|]; split; [apply held_refl|apply play_istate, play_refl]).
  destruct b.
  - destruct (mute_event_ok fuel _ K (B eq_refl)) as (t' & E & G'). exists t'. split; [exact E|]. exact (goes_trans _ _ _ _ G G').
  - eexists. split; [reflexivity|exact G].
Qed.

Lemma mute_note_ok fuel t : track_ok fuel t ->
  exists t', set_note_mute (track_set_phase fuel) t = Ok t' /\ goes fuel t t' /\ un_mute (tr_unit t') = 1.
Proof.
  intros H. apply note_mute_ok; [exact H|]. intros t1 H1 _. apply set_phase_ok; [exact H1|lia].
Qed.

(** Ticks of the instrument. *)
Lemma tick_loop_ok fuel level : 0 <= level -> forall n i t, track_ok fuel t -> 0 <= i -> i + Z.of_nat n <= 4 -> tr_instr t <> None ->
  exists t', track_tick_loop fuel n i t level = Ok t' /\ goes fuel t t'.
Proof.
  intros HL. induction n as [|n IH]; intros i t H Hi Hn HN; cbn [track_tick_loop]; [exists t; split; [reflexivity|apply goes_refl; exact H]|].
  cbv zeta. destruct (tk_instr _ _ H) as (HS & sqs & F & EI). destruct (tr_instr t) as [[id instr]|] eqn:E; [|congruence]. subst instr.
  destruct (Forall3_get _ _ _ _ F (Z.to_nat i) ltac:(change (length slot_ranges) with 4%nat; lia)) as (r & sq & st & E1 & E2 & E3 & SK).
  rewrite (nth_error_aget' (is_states (tr_istate t)) i st ltac:(lia) E3). cbn [bind].
  assert (ES : slot_sequence t i = sq).
  { unfold slot_sequence. rewrite E. cbn [in_sequences BKInstrumentUpdateNumSequences]. apply nth_error_nth. exact E2. }
  rewrite ES. destruct (sok_tick fuel r sq st level SK HL) as (st' & c & -> & SK'). cbn [bind].
  assert (L : Z.of_nat (length (is_states (tr_istate t))) = 4).
  { pose proof (Forall3_length _ _ _ _ F) as (_ & ->). reflexivity. }
  rewrite aset_ok by lia. cbn [bind].
  set (sts := upd (is_states (tr_istate t)) (Z.to_nat i) st').
  assert (F' : Forall3 (sok fuel) slot_ranges sqs sts).
  { apply Forall3_upd; [exact F|]. intros a b Ea Eb. assert (a = r) as -> by congruence. assert (b = sq) as -> by congruence. exact SK'. }
  assert (HI : forall num, goes fuel t (t_istate t (mk_istate (is_phase (tr_istate t)) num sts (is_muted (tr_istate t))))).
  { intros num. split; [|split; [apply held_refl|apply play_istate, play_refl]]. apply ok_istate; [exact H|]. rewrite E. split; [exact HS|]. exists sqs. auto. }
  assert (K : exists t1, (if c =? BK_SEQUENCE_RETURN_FINISH then
         let t1 := t_istate t (mk_istate (is_phase (tr_istate t)) (is_numActive (tr_istate t) - 1) sts (is_muted (tr_istate t))) in
         if is_numActive (tr_istate t) - 1 =? 0 then track_set_phase fuel t1 BK_SEQUENCE_PHASE_MUTE else Ok t1
       else Ok (t_istate t (mk_istate (is_phase (tr_istate t)) (is_numActive (tr_istate t)) sts (is_muted (tr_istate t))))) = Ok t1 /\ goes fuel t t1).
  { destruct (c =? _); [|eexists; split; [reflexivity|apply HI]]. cbv zeta.
    pose proof (HI (is_numActive (tr_istate t) - 1)) as G. destruct (_ =? 0); [|eexists; split; [reflexivity|exact G]].
    destruct (set_phase_ok fuel _ 0 (proj1 G) ltac:(lia)) as (t1 & E4 & G1). unfold BK_SEQUENCE_PHASE_MUTE. rewrite E4. exists t1. split; [reflexivity|].
    exact (goes_trans _ _ _ _ G G1). }
  destruct K as (t1 & EK & G1). cbv zeta in EK. rewrite EK. cbn [bind].
  destruct (IH (i + 1) t1 (proj1 G1) ltac:(lia) ltac:(lia)) as (t2 & E5 & G2).
  { rewrite (play_instr _ _ (proj2 (proj2 G1))), E. discriminate. }
  exists t2. split; [exact E5|]. exact (goes_trans _ _ _ _ G1 G2).
Qed.

Lemma num_le sqs : length sqs = 4%nat -> 0 <= num_sequences sqs 0 0 <= 4.
Proof. intros L. destruct (num_sequences_ok sqs 0 0 ltac:(lia)) as (H & _). rewrite L in H. lia. Qed.

Lemma instr_tick_ok fuel t level : track_ok fuel t -> 0 <= level -> has t FInstr = true ->
  exists t', BKTrackInstrumentTick fuel t level = Ok t' /\ goes fuel t t'.
Proof.
  intros H HL HI. unfold BKTrackInstrumentTick. pose proof (tk_flag _ _ H) as HF. destruct (tk_instr _ _ H) as (HS & sqs & F & EI).
  destruct (tr_instr t) as [[id instr]|] eqn:E; [|congruence]. subst instr. cbn [in_numSequences BKInstrumentUpdateNumSequences].
  pose proof (Forall3_length _ _ _ _ F) as (L & _). pose proof (num_le sqs L) as B.
  destruct (tick_loop_ok fuel level HL (Z.to_nat (num_sequences sqs 0 0)) 0 t H ltac:(lia) ltac:(lia)) as (t1 & -> & G1); [congruence|]. cbn [bind].
  eexists. split; [reflexivity|]. eapply goes_trans; [exact G1|]. apply goes_flags. apply G1.
Qed.

Lemma init_values_ok fuel t : track_ok fuel t -> exists s, BKTrackSetInstrumentInitValues t = Ok (t_istate t s) /\ goes fuel t (t_istate t s).
Proof.
  intros H. unfold BKTrackSetInstrumentInitValues. 
  assert (Self : goes fuel t (t_istate t (tr_istate t))) by (rewrite istate_self; apply goes_refl; exact H).
  destruct (has t FInstr) eqn:HI; [|exists (tr_istate t); split; [rewrite istate_self; reflexivity|exact Self]].
  pose proof (tk_flag _ _ H) as HF. destruct (tk_instr _ _ H) as (HS & sqs & F & EI).
  destruct (tr_instr t) as [[id instr]|] eqn:E; [|congruence]. subst instr. unfold slot_sequence. rewrite E. unfold BK_SEQUENCE_DUTY_CYCLE.
  cbn [in_sequences BKInstrumentUpdateNumSequences].
  destruct (Forall3_get _ _ _ _ F 3%nat ltac:(cbn; lia)) as (r & sq & st & E1 & E2 & E3 & SK). cbn in E1. injection E1 as <-.
  change (Z.to_nat 3) with 3%nat. rewrite (nth_error_nth _ _ None E2). destruct sq as [sq|]; [|exists (tr_istate t); split; [rewrite istate_self; reflexivity|exact Self]].
  cbv zeta. rewrite (nth_error_aget' _ 3 _ ltac:(lia) E3). cbn [bind]. pose proof (tk_duty _ _ H) as BD.
  destruct (sok_value fuel (4, 27) sq st (tr_duty t) SK) as (st' & -> & SK'); [cbn [fst]; lia|cbn [fst snd]; lia|]. cbn [bind].
  assert (L : Z.of_nat (length (is_states (tr_istate t))) = 4).
  { pose proof (Forall3_length _ _ _ _ F) as (_ & ->). reflexivity. }
  rewrite aset_ok by lia. cbn [bind]. eexists. split; [reflexivity|]. split; [|split; [apply held_refl|apply play_istate, play_refl]].
  apply ok_istate; [exact H|]. rewrite E. split; [exact HS|]. exists sqs. split; [|reflexivity]. cbn [is_states].
  apply Forall3_upd; [exact F|]. intros a b Ea Eb. cbn in Ea. injection Ea as <-. change (Z.to_nat 3) with 3%nat in Eb. assert (b = Some sq) as -> by congruence. exact SK'.
Qed.
