(** Tracks: notes, instruments, effects and ticks keep the invariant. *)
From Verif Require Import CInt CIntFacts DataModel UnitModel UnitSpec UnitProofs UnitProofs2 UnitInv UnitInv2 UnitInv3 UnitProofs5 UnitCount
  InterpModel InterpProofs IntervalProofs SlideIn ToneModel PropertiesTone SequenceModel SequenceSpec SequenceProofs InstrumentProofs InstrBounds
  TrackModel TrackSpec TrackInv TrackProofs TrackProofs2 TrackProofs3.
Ltac Zify.zify_post_hook ::= idtac.

Lemma zero_div d : div_ok d -> div_ok (zero_counter d).
Proof. intros (A & B). split; cbn; lia. Qed.

(** With the dividers changed too. *)
Definition runs (fuel : nat) (t t' : track) : Prop := track_ok fuel t' /\ held (tr_unit t) (tr_unit t').
Lemma goes_runs fuel t t' : goes fuel t t' -> runs fuel t t'.
Proof. intros (A & B & _). split; assumption. Qed.
Lemma runs_trans fuel t1 t2 t3 : runs fuel t1 t2 -> runs fuel t2 t3 -> runs fuel t1 t3.
Proof. intros (_ & A) (B & C). split; [exact B|eapply held_trans; eassumption]. Qed.

Lemma attack_ok fuel t : track_ok fuel t -> exists t', BKTrackInstrumentAttack fuel t = Ok t' /\ goes fuel (t_instrDiv t (zero_counter (tr_instrDiv t))) t'.
Proof.
  intros H. unfold BKTrackInstrumentAttack. destruct (init_values_ok fuel t H) as (s & -> & G1). cbn [bind]. cbv zeta.
  set (t0 := t_instrDiv t (zero_counter (tr_instrDiv t))).
  assert (G2 : goes fuel t0 (t_instrDiv (t_istate t s) (zero_counter (tr_instrDiv (t_istate t s))))).
  { split; [|split; [apply held_refl|apply (play_istate t0 t0 s), play_refl]]. apply ok_instrDiv; [apply G1|]. apply zero_div. exact (tk_instrDiv _ _ H). }
  destruct (set_phase_ok fuel _ 1 (proj1 G2) ltac:(lia)) as (t1 & E1 & G3). unfold BK_SEQUENCE_PHASE_ATTACK. rewrite E1. cbn [bind].
  eexists. split; [reflexivity|]. apply (goes_trans _ _ _ _ G2). apply (goes_trans _ _ _ _ G3). apply goes_flags. apply G3.
Qed.
Lemma release_phase_ok fuel t : track_ok fuel t -> exists t', BKTrackInstrumentRelease fuel t = Ok t' /\ goes fuel t t'.
Proof.
  intros H. unfold BKTrackInstrumentRelease. destruct (set_phase_ok fuel _ 2 H ltac:(lia)) as (t1 & E1 & G3). unfold BK_SEQUENCE_PHASE_RELEASE. rewrite E1. cbn [bind].
  eexists. split; [reflexivity|]. apply (goes_trans _ _ _ _ G3). apply goes_flags. apply G3.
Qed.
Lemma mute_phase_ok fuel t : track_ok fuel t -> exists t', BKTrackInstrumentMute fuel t = Ok t' /\ goes fuel t t'.
Proof.
  intros H. unfold BKTrackInstrumentMute. destruct (set_phase_ok fuel _ 0 H ltac:(lia)) as (t1 & E1 & G3). unfold BK_SEQUENCE_PHASE_MUTE. rewrite E1. cbn [bind].
  eexists. split; [reflexivity|]. apply (goes_trans _ _ _ _ G3). apply goes_flags. apply G3.
Qed.

Lemma target15 v : -32767 <= v <= 32767 -> target_ok 15 v.
Proof. unfold target_ok. rewrite P15. lia. Qed.
Lemma target14 v : 0 <= v <= 65536 -> target_ok 14 v.
Proof. unfold target_ok. rewrite P14. lia. Qed.
Lemma target0 v : -536870912 <= v <= 536870912 -> target_ok 0 v.
Proof. unfold target_ok. rewrite P0. lia. Qed.

Lemma note_clamp v : 0 <= BKClamp v (BK_MIN_NOTE * 2 ^ BK_FINT20_SHIFT) (BK_MAX_NOTE * 2 ^ BK_FINT20_SHIFT) <= MAX_NOTE.
Proof. apply (clamp_range v 0 100663296). lia. Qed.

Lemma set_note_ok fuel t note : track_ok fuel t -> (note = BK_NOTE_RELEASE -> release_ok (tr_unit t)) ->
  exists t', BKTrackSetNote fuel t note = Ok t' /\ track_ok fuel t'.
Proof.
  intros H HR. unfold BKTrackSetNote. destruct (note >=? 0).
  - pose proof (note_clamp note) as BN. set (n := BKClamp _ _ _) in *. clearbody n. unfold MAX_NOTE in BN.
    destruct (in_value 0 0 MAX_NOTE ltac:(lia) (target0 0 ltac:(lia)) (target0 MAX_NOTE ltac:(unfold MAX_NOTE; lia)) (tr_note t) n (tk_note _ _ H) BN) as (sl & E & I & _).
    rewrite E. cbn [bind]. cbv zeta. set (t1 := t_note t sl). assert (H1 : track_ok fuel t1) by (apply ok_note; assumption).
    assert (K : exists t2, (if tr_curNote t1 =? -1 then
         let t := t_note t1 (BKSlideStateHalt (tr_note t1) true) in
         let* t := (if has t FInstr then BKTrackInstrumentAttack fuel t else Ok t) in
         let a := tr_arpeggio t in
         Ok (t_arpeggio t (mk_arp 0 (ar_delta a) (ar_count a) (ar_notes a)))
       else Ok t1) = Ok t2 /\ track_ok fuel t2).
    { destruct (_ =? -1); [|exists t1; auto]. cbv zeta. set (t2 := t_note t1 _).
      assert (H2 : track_ok fuel t2) by (apply ok_note; [exact H1|]; apply in_halt; exact (tk_note _ _ H1)).
      assert (K : exists t3, (if has t2 FInstr then BKTrackInstrumentAttack fuel t2 else Ok t2) = Ok t3 /\ track_ok fuel t3).
      { destruct (has t2 FInstr); [|exists t2; auto]. destruct (attack_ok fuel t2 H2) as (t3 & E3 & (H3 & _)). exists t3. auto. }
      destruct K as (t3 & -> & H3). cbn [bind]. eexists. split; [reflexivity|]. apply ok_arpeggio; [exact H3|].
      destruct (tk_arpeggio _ _ H3) as (A1 & A2 & A3 & A4 & A5). unfold arp_ok. cbn [ar_notes ar_count ar_offset ar_delta]. repeat (split; try assumption; try lia). }
    destruct K as (t2 & K & H2). cbv zeta in K. rewrite K. cbn [bind]. clear K.
    assert (K : exists t3, (if (tr_waveform t2 =? BK_SAMPLE) && (tr_curNote t2 =? -1) then unit_attr t2 BK_PHASE (-1) else Ok t2) = Ok t3 /\ track_ok fuel t3).
    { destruct (_ && _); [|exists t2; auto].
      destruct (plain_attr_ok fuel t2 BK_PHASE (-1) H2 ltac:(lia) ltac:(discriminate) ltac:(discriminate) ltac:(discriminate)) as (u3 & r3 & _ & -> & H3). eauto. }
    destruct K as (t3 & -> & H3). cbn [bind].
    assert (H4 : track_ok fuel (t_curNote t3 n)) by (apply ok_curNote; [exact H3|unfold MAX_NOTE; lia]).
    destruct (plain_attr_ok fuel _ BK_MUTE 0 H4 ltac:(lia) ltac:(discriminate) ltac:(discriminate) ltac:(discriminate)) as (u5 & r5 & _ & -> & H5). cbn [bind].
    destruct (unit_attr_ok fuel _ BK_FLAG_RELEASE 0 H5 ltac:(lia) ltac:(intros [C|C]; discriminate C) ltac:(intros; lia)) as (u6 & r6 & _ & -> & H6). cbn [bind].
    eexists. split; [reflexivity|]. apply ok_put; [exact H6|discriminate].
  - destruct (Z.eqb_spec note BK_NOTE_RELEASE) as [EN|_].
    + specialize (HR EN). cbv zeta. set (t1 := t_curNote t (-1)). assert (H1 : track_ok fuel t1) by (apply ok_curNote; [exact H|unfold MAX_NOTE; lia]).
      assert (K : exists t2, (if has t1 FInstr then let* t := BKTrackInstrumentRelease fuel t1 in unit_attr t BK_FLAG_RELEASE 1
       else if un_sustain (tr_unit t1) then unit_attr t1 BK_FLAG_RELEASE 1
       else let t := t_note t1 (BKSlideStateHalt (tr_note t1) false) in unit_attr t BK_MUTE 1) = Ok t2 /\ track_ok fuel t2).
      { destruct (has t1 FInstr).
        - destruct (release_phase_ok fuel t1 H1) as (t2 & -> & (H2 & R2 & _)). cbn [bind].
          destruct (unit_attr_ok fuel t2 BK_FLAG_RELEASE 1 H2 ltac:(lia) ltac:(intros [C|C]; discriminate C)) as (u6 & r6 & _ & -> & H6).
          { intros _ _. apply (held_release _ _ R2). exact HR. } eauto.
        - destruct (un_sustain (tr_unit t1)).
          + destruct (unit_attr_ok fuel t1 BK_FLAG_RELEASE 1 H1 ltac:(lia) ltac:(intros [C|C]; discriminate C)) as (u6 & r6 & _ & -> & H6).
            { intros _ _. exact HR. } eauto.
          + cbv zeta. set (t2 := t_note t1 _). assert (H2 : track_ok fuel t2) by (apply ok_note; [exact H1|]; apply in_halt; exact (tk_note _ _ H1)).
            destruct (plain_attr_ok fuel t2 BK_MUTE 1 H2 ltac:(lia) ltac:(discriminate) ltac:(discriminate) ltac:(discriminate)) as (u5 & r5 & _ & -> & H5). eauto. }
      destruct K as (t2 & K & H2). cbv zeta in K. rewrite K. cbn [bind]. eexists. split; [reflexivity|]. apply ok_put; [exact H2|discriminate].
    + destruct (note =? BK_NOTE_MUTE).
      * destruct (mute_note_ok fuel t H) as (t' & E & G & _). exists t'. split; [exact E|apply G].
      * eexists. split; [reflexivity|]. apply ok_put; [exact H|discriminate].
Qed.

(** ** Setting an instrument *)

Lemma repeat_none_good fuel : sequences_ok fuel (repeat None 4).
Proof. repeat constructor. Qed.

Lemma set_instrument_on fuel t id sqs : track_ok fuel t -> sequences_ok fuel sqs ->
  exists s, state_set_instrument fuel t (Some (id, BKInstrumentUpdateNumSequences sqs)) = Ok (t_istate (t_instr t (Some (id, BKInstrumentUpdateNumSequences sqs))) s) /\
    Forall3 (sok fuel) slot_ranges sqs (is_states s) /\ 0 <= is_phase s <= 2.
Proof.
  intros H HQ. unfold state_set_instrument. cbv zeta. cbn [in_sequences BKInstrumentUpdateNumSequences].
  destruct (tk_instr _ _ H) as (HS & old & F & EI).
  assert (EO : match tr_instr t with Some (_, i) => in_sequences i | None => repeat None BK_MAX_SEQUENCES end = old).
  { destruct (tr_instr t) as [[? i]|]; subst; reflexivity. }
  rewrite EO. clear EO EI. unfold BKInstrumentStateSetInstrument, BKInstrumentStateSetDefaultValues.
  pose proof (Forall3_length _ _ _ _ F) as (L1 & L2).
  destruct (defaults_ok fuel slot_ranges old (is_states (tr_istate t)) sequenceDefaultValue slot_defaults (sok_good _ _ _ _ F) L2 (pre_junk _ _ _ _ (sok_pre_all _ _ _ _ F))) as (s1 & -> & F1).
  cbn [bind is_states is_phase is_numActive is_muted].
  destruct (defaults_ok fuel slot_ranges sqs s1 sequenceDefaultValue slot_defaults HQ (proj2 (Forall3_length _ _ _ _ F1)) (pre_junk _ _ _ _ F1)) as (s2 & -> & F2).
  cbn [bind is_states is_phase is_numActive is_muted].
  destruct (iphase fuel slot_ranges sqs (mk_istate (is_phase (tr_istate t)) (is_numActive (tr_istate t)) s2 (is_muted (tr_istate t))) 1 F2 ltac:(lia) HS ltac:(lia)) as (s' & E & F' & B & _).
  unfold BK_SEQUENCE_PHASE_ATTACK. rewrite E. cbn [bind]. exists s'. auto.
Qed.

Lemma set_instr_ok fuel t instr : track_ok fuel t ->
  match instr with Some (_, i) => exists sqs, i = BKInstrumentUpdateNumSequences sqs /\ sequences_ok fuel sqs | None => True end ->
  exists t', BKTrackSetInstrument fuel t instr = Ok t' /\ track_ok fuel t'.
Proof.
  intros H HI. unfold BKTrackSetInstrument.
  match goal with |- exists t', bind ?X _ = _ /\ _ => assert (K : exists t1, X = Ok t1 /\ track_ok fuel t1) end.
  { destruct (negb _); [|exists t; auto]. destruct instr as [[id i]|].
    - destruct HI as (sqs & -> & HQ). destruct (set_instrument_on fuel t id sqs H HQ) as (s & -> & F & B). cbn [bind]. cbv zeta.
      pose proof (ok_instr_on fuel t id sqs s H F B) as H1. set (t1 := put (t_istate _ s) FInstr true) in *.
      set (t2 := t_instrDiv t1 _). assert (H2 : track_ok fuel t2) by (apply ok_instrDiv; [exact H1|]; apply zero_div; exact (tk_instrDiv _ _ H1)).
      destruct (init_values_ok fuel t2 H2) as (s3 & -> & (H3 & _)). cbn [bind]. destruct (_ =? -1).
      + destruct (mute_phase_ok fuel _ H3) as (t4 & E4 & (H4 & _)). eauto.
      + destruct (attack_ok fuel _ H3) as (t4 & E4 & (H4 & _)). eauto.
    - cbn [state_set_instrument bind]. cbv zeta. pose proof (ok_instr_off fuel t H) as H1. destruct (_ =? -1); [|eauto].
      destruct (set_note_ok fuel _ BK_NOTE_MUTE H1 ltac:(discriminate)) as (t2 & E2 & H2). eauto. }
  destruct K as (t1 & -> & H1). cbn [bind]. eexists. split; [reflexivity|]. apply flags_ok. exact H1.
Qed.

(** ** Effects and ticks *)

Lemma depth14 v : 0 <= v <= 40959 -> depth_ok 14 v.
Proof. unfold depth_ok. rewrite P14. lia. Qed.
Lemma depth0 v : -536870912 <= v <= 805306368 -> depth_ok 0 v.
Proof. unfold depth_ok. rewrite P0. lia. Qed.

Lemma effect_tick_any sh lo hi (D : Z -> Prop) delta steps iv : 0 <= sh <= 28 -> target_ok sh lo -> target_ok sh hi -> slide_in sh lo hi delta -> slide_in 14 0 65536 steps ->
  forall shi, 0 <= shi <= 28 -> interval_inv shi iv ->
  (forall d, slide_in sh lo hi d -> exists v, BKSlideStateGetValue d = Ok v /\ depth_ok shi v) ->
  exists delta' steps' iv', effect_interval delta steps iv = Ok (delta', steps', iv') /\
    slide_in sh lo hi delta' /\ slide_in 14 0 65536 steps' /\ interval_inv shi iv'.
Proof.
  intros Hsh Tl Th Id Is shi Hshi Ii HG. unfold effect_interval.
  assert (K : exists d s i, (if negb (sl_steps delta =? 0) then
       let* delta := BKSlideStateStep delta in
       let* steps := BKSlideStateStep steps in
       let* d := BKSlideStateGetValue delta in
       let* s := BKSlideStateGetValue steps in
       let* iv := BKIntervalStateSetDeltaAndSteps iv d s in
       Ok (delta, steps, iv)
     else Ok (delta, steps, iv)) = Ok (d, s, i) /\ slide_in sh lo hi d /\ slide_in 14 0 65536 s /\ interval_inv shi i).
  { destruct (negb _); [|exists delta, steps, iv; auto].
    destruct (in_step sh lo hi delta Id) as (d & -> & Id' & _). cbn [bind].
    destruct (in_step 14 0 65536 steps Is) as (s & -> & Is' & _). cbn [bind].
    destruct (HG d Id') as (v & -> & HD). cbn [bind]. destruct (get_steps s Is') as (w & -> & Bw). cbn [bind].
    destruct (interval_set_inv shi iv v w Ii Hshi HD ltac:(lia)) as (i & -> & Ii' & _). cbn [bind]. exists d, s, i. auto. }
  destruct K as (d & s & i & -> & Id' & Is' & Ii'). cbn [bind]. destruct (interval_step_inv shi i Ii') as (i' & -> & Ii2 & _). cbn [bind].
  exists d, s, i'. auto.
Qed.

Lemma effect_tick_ok fuel t : track_ok fuel t -> exists t', BKTrackEffectTick t = Ok t' /\ track_ok fuel t' /\ tr_unit t' = tr_unit t /\ tr_flags t' = tr_flags t.
Proof.
  intros H. unfold BKTrackEffectTick.
  assert (K1 : exists t1, (if has t FPorta then let* s := BKSlideStateStep (tr_note t) in Ok (t_note t s) else Ok t) = Ok t1 /\ track_ok fuel t1 /\ tr_unit t1 = tr_unit t /\ tr_flags t1 = tr_flags t).
  { destruct (has t FPorta); [|exists t; auto]. destruct (in_step 0 0 MAX_NOTE _ (tk_note _ _ H)) as (s & -> & I & _). cbn [bind].
    eexists. split; [reflexivity|]. split; [apply ok_note; assumption|auto]. }
  destruct K1 as (t1 & -> & H1 & U1 & G1). cbn [bind].
  assert (K2 : exists t2, (if has t1 FVolSlide then let* s := BKSlideStateStep (tr_volume t1) in Ok (t_volume t1 s) else Ok t1) = Ok t2 /\ track_ok fuel t2 /\ tr_unit t2 = tr_unit t /\ tr_flags t2 = tr_flags t).
  { destruct (has t1 FVolSlide); [|exists t1; auto]. destruct (in_step 15 0 32767 _ (tk_volume _ _ H1)) as (s & -> & I & _). cbn [bind].
    eexists. split; [reflexivity|]. split; [apply ok_volume; assumption|auto]. }
  destruct K2 as (t2 & -> & H2 & U2 & G2). cbn [bind].
  assert (K3 : exists t3, (if has t2 FPanSlide then let* s := BKSlideStateStep (tr_panning t2) in Ok (t_panning t2 s) else Ok t2) = Ok t3 /\ track_ok fuel t3 /\ tr_unit t3 = tr_unit t /\ tr_flags t3 = tr_flags t).
  { destruct (has t2 FPanSlide); [|exists t2; auto]. destruct (in_step 15 (-32767) 32767 _ (tk_panning _ _ H2)) as (s & -> & I & _). cbn [bind].
    eexists. split; [reflexivity|]. split; [apply ok_panning; assumption|auto]. }
  destruct K3 as (t3 & -> & H3 & U3 & G3). cbn [bind].
  assert (K4 : exists t4, (if has t3 FTremolo then
       let* (d, s, iv) := effect_interval (tr_tremoloDelta t3) (tr_tremoloSteps t3) (tr_tremolo t3) in
       Ok (t_tremolo (t_tremoloSteps (t_tremoloDelta t3 d) s) iv)
     else Ok t3) = Ok t4 /\ track_ok fuel t4 /\ tr_unit t4 = tr_unit t /\ tr_flags t4 = tr_flags t).
  { destruct (has t3 FTremolo); [|exists t3; auto].
    destruct (effect_tick_any 15 0 32767 (fun _ => True) (tr_tremoloDelta t3) (tr_tremoloSteps t3) (tr_tremolo t3) ltac:(lia) (target15 0 ltac:(lia)) (target15 32767 ltac:(lia)) (tk_tremoloDelta _ _ H3) (tk_tremoloSteps _ _ H3) 14 ltac:(lia) (tk_tremolo _ _ H3)) as (d & s & i & -> & Id & Is & Ii).
    { intros d Id. destruct (get_volume d Id) as (v & E & B). exists v. split; [exact E|apply depth14; exact B]. }
    cbn [bind]. eexists. split; [reflexivity|]. split; [|auto]. apply ok_tremolo; [|exact Ii]. apply ok_tremoloSteps; [|exact Is]. apply ok_tremoloDelta; assumption. }
  destruct K4 as (t4 & -> & H4 & U4 & G4). cbn [bind].
  destruct (has t4 FVibrato); [|exists t4; auto].
  destruct (effect_tick_any 0 (- MAX_VIBRATO) MAX_VIBRATO (fun _ => True) (tr_vibratoDelta t4) (tr_vibratoSteps t4) (tr_vibrato t4) ltac:(lia) (target0 (- MAX_VIBRATO) ltac:(unfold MAX_VIBRATO; lia)) (target0 MAX_VIBRATO ltac:(unfold MAX_VIBRATO; lia)) (tk_vibratoDelta _ _ H4) (tk_vibratoSteps _ _ H4) 0 ltac:(lia) (tk_vibrato _ _ H4)) as (d & s & i & -> & Id & Is & Ii).
  { intros d Id. destruct (get_depth d Id) as (v & E & B). exists v. split; [exact E|apply depth0; exact B]. }
  cbn [bind]. eexists. split; [reflexivity|]. split; [|auto]. apply ok_vibrato; [|exact Ii]. apply ok_vibratoSteps; [|exact Is]. apply ok_vibratoDelta; assumption.
Qed.

Lemma effect_flags_ok fuel t : track_ok fuel t -> track_ok fuel (BKTrackEffectUpdateFlags t).
Proof.
  intros H. unfold BKTrackEffectUpdateFlags. cbv zeta.
  assert (K : forall t' k (b : bool), track_ok fuel t' -> k <> FInstr -> track_ok fuel (if b then put t' k true else t')) by (intros t' k b ? ?; destruct b; [apply ok_put|]; assumption).
  apply K; [|discriminate]. apply K; [|discriminate]. apply K; [|discriminate]. apply K; [|discriminate]. apply K; [exact H|discriminate].
Qed.

Lemma tick_ok fuel t : track_ok fuel t -> exists t', BKTrackTick fuel t = Ok t' /\ track_ok fuel t'.
Proof.
  intros H. unfold BKTrackTick. cbv zeta. apply effect_flags_ok in H. set (t0 := BKTrackEffectUpdateFlags t) in *. clearbody t0. clear t.
  assert (K1 : exists t1, (if has t0 FArp then
       let* (d, tick) := BKDividerStateTick (tr_arpDiv t0) in
       let t := t_arpDiv t0 d in
       if tick : bool then BKTrackArpeggioTick t else Ok t
     else Ok t0) = Ok t1 /\ track_ok fuel t1).
  { destruct (has t0 FArp); [|exists t0; auto]. destruct (divtick_ok _ (tk_arpDiv _ _ H)) as (d & b & -> & D & _). cbn [bind]. cbv zeta.
    pose proof (ok_arpDiv fuel t0 d H D) as H1. destruct b; [|eauto]. destruct (arptick_ok fuel _ H1) as (t2 & E2 & H2 & _). eauto. }
  destruct K1 as (t1 & K1 & H1). cbv zeta in K1. rewrite K1. cbn [bind]. clear K1.
  assert (K2 : exists t2, (if has t1 FInstr then
       let* (d, tick) := BKDividerStateTick (tr_instrDiv t1) in
       BKTrackInstrumentTick fuel (t_instrDiv t1 d) (if tick : bool then 1 else 0)
     else Ok t1) = Ok t2 /\ track_ok fuel t2).
  { destruct (has t1 FInstr) eqn:HI; [|exists t1; auto]. destruct (divtick_ok _ (tk_instrDiv _ _ H1)) as (d & b & -> & D & _). cbn [bind].
    pose proof (ok_instrDiv fuel t1 d H1 D) as H2.
    destruct (instr_tick_ok fuel _ (if b then 1 else 0) H2 ltac:(destruct b; lia) HI) as (t2 & E2 & (H3 & _)). eauto. }
  destruct K2 as (t2 & -> & H2). cbn [bind].
  destruct (update_ok fuel t2 H2) as (t3 & -> & H3 & _). cbn [bind].
  destruct (any_effect t3); [|eauto]. destruct (divtick_ok _ (tk_effDiv _ _ H3)) as (d & b & -> & D & _). cbn [bind].
  pose proof (ok_effDiv fuel t3 d H3 D) as H4. destruct b; [|eauto]. destruct (effect_tick_ok fuel _ H4) as (t5 & E5 & H5 & _). eauto.
Qed.
