(** An instrument which is set on a silent track, and the note which plays it. *)
From Verif Require Import CInt CIntFacts DataModel UnitModel UnitSpec UnitProofs UnitProofs2 UnitProofs5 UnitInv UnitInv2 UnitInv3 UnitCount
  InterpModel InterpProofs SlideIn ToneModel PropertiesTone SequenceModel SequenceSpec SequenceProofs InstrumentProofs InstrBounds
  TrackModel TrackSpec TrackInv TrackProofs TrackProofs2 TrackProofs3 TrackProofs4 TrackProofs5 TrackProofs6 TrackVolume TrackPlay TrackTicks TrackNote TrackInstr.
Ltac Zify.zify_post_hook ::= idtac.
Local Notation ticked := SequenceSpec.ticked.

(** ** Slots without sequence *)

Definition empties (sqs : list (option sequence)) (sts sts' : list sstate) : Prop := forall i, nth_error sqs i = Some None -> nth_error sts' i = nth_error sts i.
Lemma empties_refl sqs sts : empties sqs sts sts.
Proof. intros i _. reflexivity. Qed.
Lemma empties_trans sqs a b c : empties sqs a b -> empties sqs b c -> empties sqs a c.
Proof. intros X Y i E. rewrite (Y i E). apply X, E. Qed.

Lemma phase_loop_empties fuel num phase sqs : forall i sts a sts' a', set_phase_loop fuel num i sqs sts phase a = Ok (sts', a') -> empties sqs sts sts'.
Proof.
  induction sqs as [|sq sqs IH]; intros i [|st sts] a sts' a' E; cbn [set_phase_loop] in E; try (assert (sts' = _) as -> by (inversion E; reflexivity); apply empties_refl).
  - assert (sts' = []) as -> by congruence. apply empties_refl.
  - assert (sts' = st :: sts) as -> by congruence. apply empties_refl.
  - assert (sts' = []) as -> by congruence. apply empties_refl.
  - destruct (i <? num); [|assert (sts' = st :: sts) as -> by congruence; apply empties_refl].
    apply bind_inv in E. destruct E as ((st1 & a1) & E1 & E). apply bind_inv in E. destruct E as ((sts2 & a2) & E2 & E).
    assert (sts' = st1 :: sts2) as -> by congruence. intros [|j] EJ; cbn in EJ |- *.
    + assert (sq = None) as -> by congruence. cbn in E1. congruence.
    + exact (IH _ _ _ _ _ E2 j EJ).
Qed.
Lemma phase_empties fuel sqs s p s' : BKInstrumentStateSetPhase fuel (BKInstrumentUpdateNumSequences sqs) s p = Ok s' -> empties sqs (is_states s) (is_states s').
Proof.
  unfold BKInstrumentStateSetPhase. destruct (_ && _); [intros E; assert (s' = s) as -> by congruence; apply empties_refl|].
  intros E. apply bind_inv in E. destruct E as ((sts & a) & E1 & E). cbn [in_numSequences in_sequences BKInstrumentUpdateNumSequences] in E1.
  assert (K : empties sqs (is_states s) sts).
  { destruct ((0 <=? p) && (p <=? 2)); [exact (phase_loop_empties _ _ _ _ _ _ _ _ _ E1)|assert (sts = is_states s) as -> by congruence; apply empties_refl]. }
  assert (S' : is_states s' = sts); [|rewrite S'; exact K]. cbv zeta in E.
  destruct (_ || _); [|destruct (_ =? _); [destruct (negb _)|]]; match type of E with Ok ?x = _ => assert (s' = x) as -> by congruence end; reflexivity.
Qed.

Definition keeps (sqs : list (option sequence)) (t t' : track) : Prop :=
  sl_steps (tr_note t') = sl_steps (tr_note t) /\ sl_roundBias (tr_note t') = sl_roundBias (tr_note t) /\
  (tr_curNote t' = tr_curNote t \/ tr_curNote t' = -1) /\ tr_instr t' = tr_instr t /\
  empties sqs (is_states (tr_istate t)) (is_states (tr_istate t')).
Lemma keeps_refl sqs t : keeps sqs t t.
Proof. unfold keeps. auto using empties_refl. Qed.
Lemma keeps_trans sqs t1 t2 t3 : keeps sqs t1 t2 -> keeps sqs t2 t3 -> keeps sqs t1 t3.
Proof.
  intros (A1 & A2 & A3 & A4 & A5) (B1 & B2 & B3 & B4 & B5). unfold keeps. split; [congruence|]. split; [congruence|]. split; [destruct A3, B3; first [left; congruence|right; congruence]|].
  split; [congruence|]. exact (empties_trans _ _ _ _ A5 B5).
Qed.
Lemma keeps_marks sqs t t' : marks t t' -> keeps sqs t t'.
Proof. intros (u & a & b & c & ->). unfold keeps. cbn [tr_note tr_curNote tr_instr tr_istate t_unit t_flags]. auto using empties_refl. Qed.
Lemma keeps_attr sqs t a v t' : unit_attr t a v = Ok t' -> keeps sqs t t'.
Proof. intros E. apply unit_attr_inv in E. destruct E as (u & r & _ & ->). apply keeps_marks, marks_unit, marks_refl. Qed.

Section Instrument.
Context (fuel : nat) (id : Z) (sqs : list (option sequence)).
Let instr := BKInstrumentUpdateNumSequences sqs.

Lemma plain_keeps t p t' b : tr_instr t = Some (id, instr) -> set_phase_plain fuel t p = Ok (t', b) -> keeps sqs t t'.
Proof.
  intros EI. unfold set_phase_plain. rewrite EI. intros E. apply bind_inv in E. destruct E as (s & E1 & E).
  assert (t' = t_istate t s) as -> by congruence. unfold keeps. cbn [tr_note tr_curNote tr_instr tr_istate t_istate]. split; [reflexivity|]. split; [reflexivity|]. split; [auto|]. split; [reflexivity|].
  exact (phase_empties _ _ _ _ _ E1).
Qed.
Lemma note_mute_keeps set_phase t t' : tr_instr t = Some (id, instr) ->
  (forall t1 t2, tr_instr t1 = Some (id, instr) -> set_phase t1 0 = Ok t2 -> keeps sqs t1 t2) -> set_note_mute set_phase t = Ok t' -> keeps sqs t t'.
Proof.
  intros EI HS. unfold set_note_mute. cbv zeta. intros E.
  set (t1 := t_note (t_curNote t (-1)) (BKSlideStateHalt (tr_note (t_curNote t (-1))) true)) in *.
  assert (K1 : keeps sqs t t1) by (unfold keeps, t1; cbn; auto using empties_refl).
  apply bind_inv in E. destruct E as (t2 & E2 & E). apply bind_inv in E. destruct E as (t3 & E3 & E). apply bind_inv in E. destruct E as (t4 & E4 & E).
  assert (t' = put t4 FNote true) as -> by congruence.
  assert (K2 : keeps sqs t1 t2).
  { destruct (has t1 FInstr); [|assert (t2 = t1) as -> by congruence; apply keeps_refl]. apply bind_inv in E2. destruct E2 as (ta & Ea & E2).
    assert (t2 = BKTrackInstrumentUpdateFlags ta false) as -> by congruence. eapply keeps_trans; [exact (HS t1 ta EI Ea)|]. apply keeps_marks, flags_marks. }
  eapply keeps_trans; [exact K1|]. eapply keeps_trans; [exact K2|]. eapply keeps_trans; [exact (keeps_attr _ _ _ _ _ E3)|]. eapply keeps_trans; [exact (keeps_attr _ _ _ _ _ E4)|].
  apply keeps_marks. apply marks_put; [apply marks_refl|auto].
Qed.
Lemma set_phase_keeps t p t' : tr_instr t = Some (id, instr) -> track_set_phase fuel t p = Ok t' -> keeps sqs t t'.
Proof.
  intros EI. unfold track_set_phase. intros E. apply bind_inv in E. destruct E as ((t1 & b) & E1 & E). pose proof (plain_keeps _ _ _ _ EI E1) as K1.
  destruct b; [|assert (t' = t1) as -> by congruence; exact K1]. eapply keeps_trans; [exact K1|]. unfold mute_event in E.
  apply (note_mute_keeps (set_phase_inner fuel) t1); [rewrite (proj1 (proj2 (proj2 (proj2 K1)))); exact EI| |exact E].
  intros ta tb Ea Eb. unfold set_phase_inner in Eb. apply bind_inv in Eb. destruct Eb as ((tc & b) & Ec & Eb). destruct b; [discriminate|].
  assert (tb = tc) as -> by congruence. exact (plain_keeps _ _ _ _ Ea Ec).
Qed.

Lemma init_keeps t t' : tr_instr t = Some (id, instr) -> BKTrackSetInstrumentInitValues t = Ok t' -> keeps sqs t t'.
Proof.
  intros EI. unfold BKTrackSetInstrumentInitValues. destruct (has t FInstr); [|intros E; assert (t' = t) as -> by congruence; apply keeps_refl].
  rewrite EI. unfold slot_sequence. rewrite EI. cbn [in_sequences instr BKInstrumentUpdateNumSequences].
  destruct (nth (Z.to_nat BK_SEQUENCE_DUTY_CYCLE) sqs None) as [sq|] eqn:EN; [|intros E; assert (t' = t) as -> by congruence; apply keeps_refl].
  cbv zeta. intros E. apply bind_inv in E. destruct E as (st & _ & E). apply bind_inv in E. destruct E as (st1 & _ & E). apply bind_inv in E. destruct E as (sts & E1 & E).
  match type of E with Ok ?x = _ => assert (t' = x) as -> by congruence end. unfold keeps. cbn [tr_note tr_curNote tr_instr tr_istate t_istate is_states]. split; [reflexivity|]. split; [reflexivity|]. split; [auto|]. split; [reflexivity|].
  intros j EJ. unfold aset in E1. destruct (_ && _); [|discriminate]. assert (sts = upd (is_states (tr_istate t)) (Z.to_nat BK_SEQUENCE_DUTY_CYCLE) st1) as -> by congruence.
  assert (ND : j <> Z.to_nat BK_SEQUENCE_DUTY_CYCLE). { intros ->. rewrite (nth_error_nth _ _ None EJ) in EN. discriminate. }
  rewrite nth_error_upd. destruct (Nat.eqb_spec (Z.to_nat BK_SEQUENCE_DUTY_CYCLE) j) as [C|_]; [congruence|]. reflexivity.
Qed.
End Instrument.

(** The values of slots without sequence. *)
Definition defaulted (sqs : list (option sequence)) (sts : list sstate) : Prop :=
  forall i d, nth_error sqs i = Some None -> nth_error sequenceDefaultValue i = Some d -> exists st, nth_error sts i = Some st /\ st_value st = d.
Lemma defaulted_empties sqs a b : empties sqs a b -> defaulted sqs a -> defaulted sqs b.
Proof. intros E D i d H1 H2. rewrite (E i H1). exact (D i d H1 H2). Qed.
Lemma defaults_set sqs : forall dvs sts sts', set_defaults sqs dvs sts = Ok sts' -> (length dvs = length sts)%nat ->
  forall i d, nth_error sqs i = Some None -> nth_error dvs i = Some d -> exists st, nth_error sts' i = Some st /\ st_value st = d.
Proof.
  induction sqs as [|sq sqs IH]; intros [|dv dvs] [|st sts] sts' E L [|i] d H1 H2; cbn in *; try discriminate.
  - assert (sq = None) as -> by congruence. cbn in E. apply bind_inv in E. destruct E as (l & _ & E). assert (sts' = st_set_value st dv :: l) as -> by congruence.
    assert (dv = d) as -> by congruence. eexists. split; [reflexivity|reflexivity].
  - apply bind_inv in E. destruct E as (st1 & _ & E). apply bind_inv in E. destruct E as (l & E1 & E). assert (sts' = st1 :: l) as -> by congruence. cbn.
    exact (IH _ _ _ E1 ltac:(lia) i d H1 H2).
Qed.

Lemma instrument_set fuel t id sqs : track_ok fuel t -> sequences_ok fuel sqs -> let i := Some (id, BKInstrumentUpdateNumSequences sqs) in
  same_instr i (tr_instr t) = false -> tr_curNote t = -1 ->
  exists t1, BKTrackSetInstrument fuel t i = Ok t1 /\ track_ok fuel t1 /\ play (t_instrDiv (put (t_instr t i) FInstr true) (zero_counter (tr_instrDiv t))) t1 /\
    un_ctx (tr_unit t1) = un_ctx (tr_unit t) /\ tr_curNote t1 = -1 /\ sl_steps (tr_note t1) = sl_steps (tr_note t) /\ sl_roundBias (tr_note t1) = sl_roundBias (tr_note t) /\
    has t1 FVolume = true /\ has t1 FNote = true /\ has t1 FDuty = true /\ defaulted sqs (is_states (tr_istate t1)).
Proof.
  intros H HQ i NS HC. unfold BKTrackSetInstrument. rewrite NS. cbn [negb]. unfold i at 1. cbv iota.
  destruct (set_instrument_on fuel t id sqs H HQ) as (s & ES & F & B). unfold i. rewrite ES. cbn [bind]. cbv zeta.
  assert (DF : defaulted sqs (is_states s)).
  { unfold state_set_instrument in ES. cbv zeta in ES. apply bind_inv in ES. destruct ES as (s0 & E0 & ES).
    assert (s0 = s) as -> by (apply (f_equal (fun x => match x with Ok t => tr_istate t | Err _ => s end)) in ES; exact ES). clear ES.
    unfold BKInstrumentStateSetInstrument in E0. apply bind_inv in E0. destruct E0 as (s1 & E1 & E0). apply bind_inv in E0. destruct E0 as (s2 & E2 & E0).
    apply phase_empties in E0. apply (defaulted_empties _ _ _ E0). unfold BKInstrumentStateSetDefaultValues in E2. apply bind_inv in E2. destruct E2 as (sts & E2 & E3).
    assert (is_states s2 = sts) as -> by (match type of E3 with Ok ?x = _ => assert (s2 = x) as -> by congruence end; reflexivity).
    intros j d HJ HD. apply (defaults_set _ _ _ _ E2) with (i := j) (d := d); [|exact HJ|exact HD].
    pose proof (Forall3_length _ _ _ _ F) as (L1 & L2).
    unfold BKInstrumentStateSetDefaultValues in E1. apply bind_inv in E1. destruct E1 as (sts1 & E1 & E3').
    destruct (tk_instr _ _ H) as (HS & old & F0 & EI).
    assert (EO : match tr_instr t with Some (_, i) => in_sequences i | None => repeat None BK_MAX_SEQUENCES end = old) by (destruct (tr_instr t) as [[? i']|]; subst; reflexivity).
    rewrite EO in E1. pose proof (Forall3_length _ _ _ _ F0) as (L3 & L4).
    destruct (defaults_ok fuel slot_ranges old (is_states (tr_istate t)) sequenceDefaultValue slot_defaults (sok_good _ _ _ _ F0) L4 (pre_junk _ _ _ _ (sok_pre_all _ _ _ _ F0))) as (s1' & E1' & F1).
    rewrite E1' in E1. assert (sts1 = s1') as -> by congruence. assert (is_states s1 = s1') as -> by (match type of E3' with Ok ?x = _ => assert (s1 = x) as -> by congruence end; reflexivity).
    rewrite (proj2 (Forall3_length _ _ _ _ F1)). reflexivity. }
  pose proof (ok_instr_on fuel t id sqs s H F B) as H1. set (t1 := put (t_istate _ s) FInstr true) in *.
  set (t2 := t_instrDiv t1 _). assert (H2 : track_ok fuel t2) by (apply ok_instrDiv; [exact H1|]; apply zero_div; exact (tk_instrDiv _ _ H1)).
  destruct (init_values_ok fuel t2 H2) as (s3 & E3 & (H3 & G3)). pose proof (init_keeps id sqs t2 _ eq_refl E3) as K3. rewrite E3. cbn [bind].
  change (tr_curNote (t_istate t2 s3)) with (tr_curNote t). rewrite HC. cbn [Z.eqb Pos.eqb].
  destruct (mute_phase_ok fuel _ H3) as (t4 & E4 & (H4 & (HD4 & P4))). rewrite E4. cbn [bind]. eexists. split; [reflexivity|].
  assert (K4 : keeps sqs (t_istate t2 s3) t4).
  { unfold BKTrackInstrumentMute in E4. apply bind_inv in E4. destruct E4 as (ta & Ea & E4). assert (t4 = BKTrackInstrumentUpdateFlags ta false) as -> by congruence.
    eapply keeps_trans; [assert (EI2 : tr_instr (t_istate t2 s3) = Some (id, BKInstrumentUpdateNumSequences sqs)) by reflexivity; exact (set_phase_keeps fuel id sqs _ _ _ EI2 Ea)|]. apply keeps_marks, flags_marks. }
  pose proof (keeps_trans _ _ _ _ K3 K4) as (Q1 & Q2 & Q3 & Q4 & Q5).
  split; [apply flags_ok; exact H4|]. split.
  { eapply play_trans; [|apply marks_play, flags_marks]. eapply play_trans; [|exact P4]. apply play_istate. exists (tr_unit t), (has t FVolume), (has t FNote), (has t FDuty), s, (tr_note t), (tr_curNote t).
    unfold t2, t1. destruct t as [? ? ? f]. destruct f. reflexivity. }
  split; [rewrite marks_unit_same; destruct HD4 as (_ & _ & _ & _ & _ & HD4); exact HD4|].
  change (tr_curNote (BKTrackInstrumentUpdateFlags t4 true)) with (tr_curNote t4). change (tr_note (BKTrackInstrumentUpdateFlags t4 true)) with (tr_note t4).
  change (tr_istate (BKTrackInstrumentUpdateFlags t4 true)) with (tr_istate t4).
  split; [destruct Q3 as [-> | ->]; [exact HC|reflexivity]|]. split; [exact Q1|]. split; [exact Q2|]. repeat (split; [reflexivity|]).
  exact (defaulted_empties _ _ _ Q5 DF).
Qed.

(** ** A note which begins *)

Lemma note_attack fuel t v sqs : track_ok fuel t -> slots fuel sqs t -> tr_curNote t = -1 -> 0 <= v -> sl_steps (tr_note t) = 0 -> sl_roundBias (tr_note t) = 0 ->
  exists t2 sts, BKTrackSetNote fuel t v = Ok t2 /\ track_ok fuel t2 /\
    play (t_arpeggio (t_instrDiv t (zero_counter (tr_instrDiv t))) (mk_arp 0 (ar_delta (tr_arpeggio t)) (ar_count (tr_arpeggio t)) (ar_notes (tr_arpeggio t)))) t2 /\
    un_ctx (tr_unit t2) = un_ctx (tr_unit t) /\ un_mute (tr_unit t2) = 0 /\ BKSlideStateGetValue (tr_note t2) = Ok (Z.min v MAX_NOTE) /\
    has t2 FNote = true /\ (has t FVolume = true -> has t2 FVolume = true) /\ (has t FDuty = true -> has t2 FDuty = true) /\
    playing sqs (tr_istate t2) /\ is_phase (tr_istate t2) = 1 /\ is_states (tr_istate t2) = phased fuel sqs 1 sts /\ Forall2 (slot_ok fuel) sqs sts /\
    empties sqs (is_states (tr_istate t)) sts.
Proof.
  intros H SL HC HV S0 B0. destruct (set_note_ok fuel t v H ltac:(unfold BK_NOTE_RELEASE; intros ->; lia)) as (t' & E & H'). exists t'.
  destruct (track_slots fuel sqs t H SL) as (F & HI). destruct SL as (id & EI).
  assert (BN : 0 <= Z.min v MAX_NOTE <= MAX_NOTE) by (unfold MAX_NOTE; lia).
  destruct (in_value 0 0 MAX_NOTE ltac:(lia) (target0 0 ltac:(lia)) (target0 MAX_NOTE ltac:(unfold MAX_NOTE; lia)) (tr_note t) _ (tk_note _ _ H) BN) as (sl & ES & I & EV & _ & EB).
  destruct (EB S0) as (VV & BB). change (P 0) with 1 in *. clear EB.
  pose proof E as E0. unfold BKTrackSetNote in E0. rewrite Z.geb_leb in E0. destruct (Z.leb_spec 0 v) as [_|C]; [|lia]. rewrite (min_note v HV) in E0. cbv zeta in E0.
  rewrite ES in E0. cbn [bind] in E0. set (n := Z.min v MAX_NOTE) in *. clearbody n.
  change (tr_curNote (t_note t sl)) with (tr_curNote t) in E0. change (has (t_note (t_note t sl) (BKSlideStateHalt (tr_note (t_note t sl)) true)) FInstr) with (has t FInstr) in E0.
  rewrite HI, HC in E0. cbn [Z.eqb Pos.eqb] in E0. set (t1 := t_note (t_note t sl) _) in E0.
  assert (H1 : track_ok fuel t1) by (unfold t1; apply ok_note; [apply ok_note; [exact H|exact I]|]; apply in_halt; exact I).
  destruct (init_values_ok fuel t1 H1) as (s & EVAL & (HS & _)).
  assert (EI1 : tr_instr t1 = Some (id, BKInstrumentUpdateNumSequences sqs)) by exact EI.
  pose proof (init_keeps id sqs t1 _ EI1 EVAL) as (_ & _ & _ & _ & K1).
  assert (FS : Forall2 (slot_ok fuel) sqs (is_states s)).
  { destruct (track_slots fuel sqs (t_istate t1 s) HS ltac:(exists id; exact EI)) as (F1 & _). apply (sok_slots _ _ _ _ F1). }
  destruct (phase_set fuel sqs s 1 FS ltac:(lia) ltac:(lia)) as (EP & FP). cbn [Z.eqb Pos.eqb orb] in EP. rewrite andb_false_r in EP. cbn [andb] in EP.
  set (sts' := map (phase_slot fuel 1) (combine sqs (is_states s))) in *. change sts' with (phased fuel sqs 1 (is_states s)) in *. set (sts2 := phased fuel sqs 1 (is_states s)) in *.
  set (s2 := mk_istate 1 (unfinished sqs sts2) sts2 (is_muted s + 0)) in EP.
  set (d0 := zero_counter (tr_instrDiv t)).
  assert (EA : BKTrackInstrumentAttack fuel t1 = Ok (BKTrackInstrumentUpdateFlags (t_istate (t_instrDiv t1 d0) s2) false)).
  { unfold BKTrackInstrumentAttack. rewrite EVAL. cbn [bind]. cbv zeta. change (tr_instrDiv (t_istate t1 s)) with (tr_instrDiv t). fold d0.
    unfold track_set_phase, set_phase_plain. change (tr_instr (t_instrDiv (t_istate t1 s) d0)) with (tr_instr t). rewrite EI. change (tr_istate (t_instrDiv (t_istate t1 s) d0)) with s.
    unfold BK_SEQUENCE_PHASE_ATTACK. rewrite EP. cbn [bind]. replace (is_muted s2 =? is_muted s) with true by (unfold s2; cbn [is_muted]; lia). cbn [negb bind]. reflexivity. }
  rewrite EA in E0. cbn [bind] in E0. clear EA. set (t3 := BKTrackInstrumentUpdateFlags (t_istate (t_instrDiv t1 d0) s2) false) in E0.
  assert (M3 : marks (t_istate (t_instrDiv t1 d0) s2) t3) by apply flags_marks.
  set (t4 := t_arpeggio t3 _) in E0.
  destruct (flags_has (t_istate (t_instrDiv t1 d0) s2)) as (FV & FN & FD). fold t3 in FV, FN, FD.
  assert (U4 : tr_unit t4 = tr_unit t) by (unfold t4; cbn [tr_unit t_arpeggio]; unfold t3; rewrite marks_unit_same; reflexivity).
  apply bind_inv in E0. destruct E0 as (t5 & E5 & E0).
  assert (K5 : exists u5, t5 = t_unit t4 u5 /\ un_ctx u5 = un_ctx (tr_unit t)).
  { destruct (_ && _).
    - apply unit_attr_inv in E5. destruct E5 as (u & r & EU & ->). exists u. split; [reflexivity|]. rewrite U4 in EU. exact (phase_ctx _ _ _ EU).
    - exists (tr_unit t4). split; [assert (t5 = t4) as -> by congruence; destruct t4; reflexivity|]. rewrite U4. reflexivity. }
  destruct K5 as (u5 & -> & C5). apply bind_inv in E0. destruct E0 as (t6 & E6 & E0). apply bind_inv in E0. destruct E0 as (t7 & E7 & E0).
  apply unit_attr_inv in E6. destruct E6 as (u6 & r6 & E6 & ->). apply unit_attr_inv in E7. destruct E7 as (u7 & r7 & E7 & ->).
  apply mute_tuned in E6. destruct E6 as ((_ & _ & _ & C6) & MU6). cbn [Z.eqb] in MU6. apply release_held in E7. destruct E7 as ((_ & _ & _ & _ & _ & C7) & MU7).
  match type of E0 with Ok ?x = _ => assert (ET : t' = x) by congruence end.
  destruct M3 as (um & a & b & c & EM).
  exists (is_states s). split; [exact E|]. split; [exact H'|]. split.
  { exists u7, a, true, c, s2, (BKSlideStateHalt sl true), n. rewrite ET. unfold t4. rewrite EM. unfold t1. reflexivity. }
  split; [rewrite ET; cbn [tr_unit put t_flags t_unit]; rewrite C7; cbn [tr_unit t_unit]; rewrite C6; exact C5|].
  split; [rewrite ET; cbn [tr_unit put t_flags t_unit]; rewrite MU7; exact MU6|].
  split. { rewrite ET. unfold t4. rewrite EM. change (BKSlideStateGetValue (BKSlideStateHalt sl true) = Ok n).
    rewrite (get_value 0); [|exact (proj1 (in_halt 0 0 MAX_NOTE sl true I))|lia]. cbn [BKSlideStateHalt sl_value sl_roundBias]. rewrite EV, BB, B0, Z.div_1_r. f_equal. lia. }
  split; [rewrite ET; reflexivity|].
  split; [intros X; rewrite ET; change (has t3 FVolume = true); rewrite FV; change (has (t_istate (t_instrDiv t1 d0) s2) FVolume) with (has t FVolume); rewrite X; reflexivity|].
  split; [intros X; rewrite ET; change (has t3 FDuty = true); rewrite FD; change (has (t_istate (t_instrDiv t1 d0) s2) FDuty) with (has t FDuty); rewrite X; reflexivity|].
  assert (IS : tr_istate t' = s2) by (rewrite ET; unfold t4; rewrite EM; reflexivity). rewrite IS.
  split; [split; [left; reflexivity|reflexivity]|]. split; [reflexivity|]. split; [reflexivity|]. split; [exact FS|]. exact K1.
Qed.
