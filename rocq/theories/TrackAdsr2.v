(** An instrument with an envelope of attack, decay, sustain and release on a track. *)
From Verif Require Import CInt CIntFacts DataModel UnitModel UnitSpec UnitProofs UnitProofs2 UnitProofs5 UnitInv UnitInv2 UnitInv3 UnitCount
  InterpModel InterpProofs SlideIn ToneModel PropertiesTone SequenceModel SequenceSpec SequenceProofs InstrumentProofs InstrBounds
  TrackModel TrackSpec TrackInv TrackProofs TrackProofs2 TrackProofs3 TrackProofs4 TrackProofs5 TrackProofs6 TrackVolume TrackPlay TrackTicks TrackNote TrackAttrs
  TrackInstr TrackInstr2 TrackInstr3 TrackInstr4 TrackInstr5 TrackMelody TrackMelody2 TrackMelody3 TrackMelody4 TrackAdsr.
Ltac Zify.zify_post_hook ::= idtac.
Local Notation ticked := SequenceSpec.ticked.
Local Notation played := SequenceSpec.played.

(** ** What the calls of a track do to the state of its instrument *)

(** The phase is set, and once more with muting if the callback is called. *)
Definition phased_to (fuel : nat) (instr : instrument) (s : istate) (p : Z) (s' : istate) : Prop :=
  exists s1, BKInstrumentStateSetPhase fuel instr s p = Ok s1 /\
    (is_muted s1 = is_muted s /\ s' = s1 \/ is_muted s1 <> is_muted s /\ BKInstrumentStateSetPhase fuel instr s1 0 = Ok s').

Lemma plain_istate fuel id instr t p t' c : tr_instr t = Some (id, instr) -> set_phase_plain fuel t p = Ok (t', c) ->
  exists s', BKInstrumentStateSetPhase fuel instr (tr_istate t) p = Ok s' /\ t' = t_istate t s' /\ c = negb (is_muted s' =? is_muted (tr_istate t)).
Proof.
  intros EI E. unfold set_phase_plain in E. rewrite EI in E. apply bind_inv in E. destruct E as (s' & ES & E). exists s'. split; [exact ES|].
  match type of E with Ok (?x, ?y) = _ => assert (t' = x /\ c = y) as (-> & ->) by (split; congruence) end. split; reflexivity.
Qed.
Lemma note_mute_istate sp t t' : has t FInstr = true -> set_note_mute sp t = Ok t' ->
  exists ta tb, tr_istate ta = tr_istate t /\ tr_instr ta = tr_instr t /\ has ta FInstr = true /\ sp ta 0 = Ok tb /\ tr_istate t' = tr_istate tb.
Proof.
  intros HI E. unfold set_note_mute in E. cbv zeta in E. set (t1 := t_note (t_curNote t (-1)) _) in *.
  apply bind_inv in E. destruct E as (t2 & E2 & E). apply bind_inv in E. destruct E as (t3 & E3 & E). apply bind_inv in E. destruct E as (t4 & E4 & E).
  assert (t' = put t4 FNote true) as -> by congruence. apply unit_attr_inv in E3. destruct E3 as (u3 & r3 & _ & ->). apply unit_attr_inv in E4. destruct E4 as (u4 & r4 & _ & ->).
  change (has t1 FInstr) with (has t FInstr) in E2. rewrite HI in E2. apply bind_inv in E2. destruct E2 as (ta & Ea & E2).
  assert (t2 = BKTrackInstrumentUpdateFlags ta false) as -> by congruence. exists t1, ta. split; [reflexivity|]. split; [reflexivity|]. split; [exact HI|]. split; [exact Ea|].
  change (tr_istate (BKTrackInstrumentUpdateFlags ta false) = tr_istate ta). destruct (flags_marks ta false) as (? & ? & ? & ? & ->). reflexivity.
Qed.
Lemma phase_istate fuel id instr t p t' : tr_instr t = Some (id, instr) -> has t FInstr = true -> track_set_phase fuel t p = Ok t' -> phased_to fuel instr (tr_istate t) p (tr_istate t').
Proof.
  intros EI HI E. unfold track_set_phase in E. apply bind_inv in E. destruct E as ((t1 & c) & E1 & E). destruct (plain_istate _ _ _ _ _ _ _ EI E1) as (s1 & ES & -> & ->). exists s1. split; [exact ES|].
  destruct (Z.eqb_spec (is_muted s1) (is_muted (tr_istate t))) as [M|M]; cbn [negb] in E.
  - left. split; [exact M|]. match type of E with Ok ?x = _ => assert (t' = x) as -> by congruence end. reflexivity.
  - right. split; [exact M|]. unfold mute_event in E. destruct (note_mute_istate (set_phase_inner fuel) (t_istate t s1) t' HI E) as (ta & tb & A1 & A2 & A3 & Eb & ->).
    unfold set_phase_inner in Eb. apply bind_inv in Eb. destruct Eb as ((tc & b) & Ec & Eb). destruct b; [discriminate|]. assert (tb = tc) as -> by congruence.
    assert (EIa : tr_instr ta = Some (id, instr)) by (rewrite A2; exact EI). destruct (plain_istate _ _ _ _ _ _ _ EIa Ec) as (s2 & ES2 & -> & _). rewrite A1 in ES2. exact ES2.
Qed.

Lemma mute_istate fuel id instr t t' : tr_instr t = Some (id, instr) -> has t FInstr = true -> BKTrackSetNote fuel t BK_NOTE_MUTE = Ok t' -> phased_to fuel instr (tr_istate t) 0 (tr_istate t').
Proof.
  intros EI HI E. change (set_note_mute (track_set_phase fuel) t = Ok t') in E. destruct (note_mute_istate _ _ _ HI E) as (ta & tb & A1 & A2 & A3 & Eb & ->).
  rewrite <- A1. apply (phase_istate fuel id instr ta 0 tb); [rewrite A2; exact EI|exact A3|exact Eb].
Qed.
Lemma release_istate fuel id instr t t' : tr_instr t = Some (id, instr) -> has t FInstr = true -> BKTrackSetNote fuel t BK_NOTE_RELEASE = Ok t' ->
  phased_to fuel instr (tr_istate t) 2 (tr_istate t') /\ (exists t2, track_set_phase fuel (t_curNote t (-1)) 2 = Ok t2 /\ tr_note t' = tr_note t2 /\ un_mute (tr_unit t') = un_mute (tr_unit t2) /\ tr_instrDiv t' = tr_instrDiv t2).
Proof.
  intros EI HI E. unfold BKTrackSetNote in E. change (BK_NOTE_RELEASE >=? 0) with false in E. change (BK_NOTE_RELEASE =? BK_NOTE_RELEASE) with true in E. cbv iota zeta in E.
  set (t0 := t_curNote t (-1)) in *. change (has t0 FInstr) with (has t FInstr) in E. rewrite HI in E.
  apply bind_inv in E. destruct E as (t1 & E & E1). assert (ET : t' = put t1 FNote true) by congruence. clear E1. apply bind_inv in E. destruct E as (t2 & E2 & E1).
  apply unit_attr_inv in E1. destruct E1 as (u & r & EU & ET1). destruct (release_held _ _ _ _ EU) as (_ & MU).
  unfold BKTrackInstrumentRelease in E2. apply bind_inv in E2. destruct E2 as (t3 & E3 & E2). assert (ET2 : t2 = BKTrackInstrumentUpdateFlags t3 false) by congruence. clear E2.
  assert (IS : tr_istate t' = tr_istate t3) by (rewrite ET, ET1; change (tr_istate t2 = tr_istate t3); rewrite ET2; destruct (flags_marks t3 false) as (? & ? & ? & ? & ->); reflexivity).
  split; [rewrite IS; exact (phase_istate fuel id instr t0 2 t3 EI HI E3)|]. exists t3. split; [exact E3|]. rewrite ET, ET1.
  split; [change (tr_note t2 = tr_note t3); rewrite ET2; destruct (flags_marks t3 false) as (? & ? & ? & ? & ->); reflexivity|].
  split; [change (un_mute u = un_mute (tr_unit t3)); rewrite MU, ET2, marks_unit_same; reflexivity|].
  change (tr_instrDiv t2 = tr_instrDiv t3). rewrite ET2. destruct (flags_marks t3 false) as (? & ? & ? & ? & ->); reflexivity.
Qed.
Lemma init_istate t t' : slot_sequence t BK_SEQUENCE_DUTY_CYCLE = None -> BKTrackSetInstrumentInitValues t = Ok t' -> t' = t.
Proof. intros EN E. unfold BKTrackSetInstrumentInitValues in E. rewrite EN in E. destruct (has t FInstr); [destruct (tr_instr t); [|discriminate]|]; congruence. Qed.
Lemma attack_istate fuel id instr t v t' : tr_instr t = Some (id, instr) -> has t FInstr = true -> slot_sequence t BK_SEQUENCE_DUTY_CYCLE = None -> tr_curNote t = -1 -> 0 <= v ->
  BKTrackSetNote fuel t v = Ok t' -> phased_to fuel instr (tr_istate t) 1 (tr_istate t').
Proof.
  intros EI HI EN HC HV E. unfold BKTrackSetNote in E. rewrite Z.geb_leb in E. destruct (Z.leb_spec 0 v) as [_|C]; [|lia]. rewrite (min_note v HV) in E. cbv zeta in E.
  apply bind_inv in E. destruct E as (sl & _ & E). change (tr_curNote (t_note t sl)) with (tr_curNote t) in E. rewrite HC in E. cbn [Z.eqb Pos.eqb] in E.
  set (t1 := t_note (t_note t sl) _) in E. change (has t1 FInstr) with (has t FInstr) in E. rewrite HI in E. apply bind_inv in E. destruct E as (tz & Ez & E). apply bind_inv in Ez. destruct Ez as (ta & Ea & Ez).
  match type of Ez with Ok ?x = _ => assert (EZ : tz = x) by congruence end. clear Ez.
  apply bind_inv in E. destruct E as (t3 & E3 & E). apply bind_inv in E. destruct E as (t4 & E4 & E). apply bind_inv in E. destruct E as (t5 & E5 & E).
  assert (ET : t' = put t5 FNote true) by congruence. clear E.
  destruct (begin_stays [] tz _ t3 t4 t5 t' E3 E4 E5 ET) as (_ & _ & _ & _ & IS & _). rewrite IS, EZ. change (phased_to fuel instr (tr_istate t) 1 (tr_istate ta)).
  unfold BKTrackInstrumentAttack in Ea. apply bind_inv in Ea. destruct Ea as (tc & Ec & Ea). cbv zeta in Ea. apply bind_inv in Ea. destruct Ea as (td & Ed & Ea).
  assert (EA : ta = BKTrackInstrumentUpdateFlags td false) by congruence. clear Ea. apply init_istate in Ec; [|exact EN]. subst tc.
  assert (ID : tr_istate ta = tr_istate td) by (rewrite EA; destruct (flags_marks td false) as (? & ? & ? & ? & ->); reflexivity). rewrite ID.
  exact (phase_istate fuel id instr (t_instrDiv t1 _) 1 td EI HI Ed).
Qed.

(** A tick with a single sequence in the first slot. *)
Lemma tick_istate fuel id sq t t' : let instr := BKInstrumentUpdateNumSequences [Some sq; None; None; None] in
  track_ok fuel t -> tr_instr t = Some (id, instr) -> has t FInstr = true -> any_effect t = false -> has t FArp = false -> BKTrackTick fuel t = Ok t' ->
  let s := tr_istate t in exists st st' r rest lv, is_states s = st :: rest /\ 0 <= lv /\ BKSequenceStateStep fuel (Some sq) st lv = Ok (st', r) /\
    if r =? 4 then let s1 := mk_istate (is_phase s) (is_numActive s - 1) (st' :: rest) (is_muted s) in
                   if is_numActive s - 1 =? 0 then phased_to fuel instr s1 0 (tr_istate t') else tr_istate t' = s1
    else tr_istate t' = mk_istate (is_phase s) (is_numActive s) (st' :: rest) (is_muted s).
Proof.
  intros instr H EI HI HE HA E s. destruct (effect_on t HE) as (V1 & V2 & V3 & V4 & V5).
  assert (EF : BKTrackEffectUpdateFlags t = t) by (unfold BKTrackEffectUpdateFlags; rewrite V3; cbv zeta; rewrite V1, V2, V4, V5; reflexivity).
  unfold BKTrackTick in E. rewrite EF in E. cbv zeta in E. rewrite HA in E. cbn [bind] in E. rewrite HI in E.
  destruct (divtick_ok _ (tk_instrDiv _ _ H)) as (dd & b & ED & D & Eb & Ed). rewrite ED in E. cbn [bind] in E. set (lv := if b then 1 else 0) in E.
  assert (HL : 0 <= lv) by (unfold lv; destruct b; lia). clearbody lv.
  apply bind_inv in E. destruct E as (t1 & E1 & E).
  assert (OKI : track_ok fuel (t_instrDiv t dd)) by (apply ok_instrDiv; assumption).
  destruct (instr_tick_ok fuel (t_instrDiv t dd) lv OKI HL HI) as (t1' & E1' & (H1 & _ & P1)). assert (t1' = t1) as -> by congruence. clear E1'.
  apply bind_inv in E. destruct E as (t3 & E3 & E). destruct (update_ok fuel t1 H1) as (t3' & E3' & _ & M3). assert (t3' = t3) as -> by congruence.
  assert (HE3 : any_effect t3 = false).
  { unfold any_effect. rewrite !(marks_has _ _ _ M3) by discriminate. destruct (play_fields _ _ P1) as (_ & _ & _ & _ & _ & _ & _ & _ & _ & _ & F1). rewrite !F1 by discriminate. exact HE. }
  rewrite HE3 in E. assert (ET : t' = t3) by congruence. assert (IS3 : tr_istate t' = tr_istate t1) by (rewrite ET; destruct M3 as (? & ? & ? & ? & ->); reflexivity). rewrite IS3. clear E E3 ET IS3.
  unfold BKTrackInstrumentTick in E1. change (tr_instr (t_instrDiv t dd)) with (tr_instr t) in E1. rewrite EI in E1.
  apply bind_inv in E1. destruct E1 as (t2 & E2 & E1). assert (ET : t1 = BKTrackInstrumentUpdateFlags t2 false) by congruence.
  assert (IS1 : tr_istate t1 = tr_istate t2) by (rewrite ET; destruct (flags_marks t2 false) as (? & ? & ? & ? & ->); reflexivity). rewrite IS1. clear E1 ET IS1.
  change (Z.to_nat (in_numSequences instr)) with 1%nat in E2. cbn [track_tick_loop] in E2. cbv zeta in E2. change (tr_istate (t_instrDiv t dd)) with s in E2.
  assert (SS : slot_sequence (t_instrDiv t dd) 0 = Some sq) by (unfold slot_sequence; change (tr_instr (t_instrDiv t dd)) with (tr_instr t); rewrite EI; reflexivity). rewrite SS in E2.
  apply bind_inv in E2. destruct E2 as (st & E0 & E2). apply bind_inv in E2. destruct E2 as ((st' & r) & E4 & E2). apply bind_inv in E2. destruct E2 as (sts & E5 & E2). apply bind_inv in E2. destruct E2 as (t4 & E6 & E2).
  assert (t4 = t2) as -> by congruence. clear E2.
  destruct (is_states s) as [|st0 rest] eqn:EST; [discriminate E0|]. exists st0, st', r, rest, lv. split; [reflexivity|]. split; [exact HL|].
  assert (st = st0) as -> by (unfold aget in E0; destruct (_ && _); [|discriminate]; cbn in E0; congruence). split; [exact E4|].
  assert (sts = st' :: rest) as -> by (unfold aset in E5; destruct (_ && _); [|discriminate]; cbn in E5; congruence).
  change (r =? BK_SEQUENCE_RETURN_FINISH) with (r =? 4) in E6. destruct (r =? 4).
  - destruct (is_numActive s - 1 =? 0).
    + exact (phase_istate fuel id instr (t_istate (t_instrDiv t dd) _) 0 t2 EI HI E6).
    + match type of E6 with Ok ?x = _ => assert (t2 = x) as -> by congruence end. reflexivity.
  - match type of E6 with Ok ?x = _ => assert (t2 = x) as -> by congruence end. reflexivity.
Qed.
