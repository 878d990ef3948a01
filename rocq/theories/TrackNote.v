(** Notes that are set, and what is played afterwards. *)
From Verif Require Import CInt CIntFacts DataModel UnitModel UnitSpec UnitProofs UnitProofs2 UnitProofs5 UnitInv UnitInv2 UnitInv3 UnitCount
  InterpModel InterpProofs SlideIn ToneModel PropertiesTone SequenceModel TrackModel TrackSpec TrackInv TrackProofs TrackProofs2
  TrackProofs3 TrackProofs4 TrackProofs5 TrackProofs6 TrackVolume TrackPlay TrackTicks.
Ltac Zify.zify_post_hook ::= idtac.

(** ** The note read back, in any state *)

Lemma unit_attr_inv t k v t' : unit_attr t k v = Ok t' -> exists u r, BKUnitSetAttr (tr_unit t) k v = Ok (u, r) /\ t' = t_unit t u.
Proof. unfold unit_attr. intros E. apply bind_inv in E. destruct E as ((u & r) & E & E'). exists u, r. split; [exact E|congruence]. Qed.
Lemma unit_attr_note t k v t' : unit_attr t k v = Ok t' -> tr_curNote t' = tr_curNote t.
Proof. intros E. apply unit_attr_inv in E. destruct E as (u & r & _ & ->). reflexivity. Qed.
Lemma flags_note t b : tr_curNote (BKTrackInstrumentUpdateFlags t b) = tr_curNote t.
Proof.
  unfold BKTrackInstrumentUpdateFlags. destruct b; [reflexivity|]. cbv zeta.
  assert (K : forall (x : bool) k t0, tr_curNote (if x then put t0 k true else t0) = tr_curNote t0) by (intros [|]; reflexivity). rewrite !K. reflexivity.
Qed.
Lemma plain_note fuel t p t' b : set_phase_plain fuel t p = Ok (t', b) -> tr_curNote t' = tr_curNote t.
Proof.
  unfold set_phase_plain. destruct (tr_instr t) as [[? ?]|].
  - intros E. apply bind_inv in E. destruct E as (s & _ & E). assert (t' = t_istate t s) as -> by congruence. reflexivity.
  - intros E. assert (t' = t) as -> by congruence. reflexivity.
Qed.
Lemma inner_note fuel t p t' : set_phase_inner fuel t p = Ok t' -> tr_curNote t' = tr_curNote t.
Proof.
  unfold set_phase_inner. intros E. apply bind_inv in E. destruct E as ((t1 & b) & E1 & E). apply plain_note in E1. destruct b; [discriminate|].
  assert (t' = t1) as -> by congruence. exact E1.
Qed.
Lemma mute_note (sp : track -> Z -> res track) t t' : (forall x p x', sp x p = Ok x' -> tr_curNote x' = tr_curNote x \/ tr_curNote x' = -1) ->
  set_note_mute sp t = Ok t' -> tr_curNote t' = -1.
Proof.
  intros HS E. unfold set_note_mute in E. cbv zeta in E. set (t0 := t_note (t_curNote t (-1)) _) in E. assert (N0 : tr_curNote t0 = -1) by reflexivity. clearbody t0.
  apply bind_inv in E. destruct E as (t1 & E1 & E).
  assert (N1 : tr_curNote t1 = -1).
  { destruct (has t0 FInstr); [|congruence]. apply bind_inv in E1. destruct E1 as (t2 & E2 & E1). assert (t1 = BKTrackInstrumentUpdateFlags t2 false) as -> by congruence.
    rewrite flags_note. destruct (HS _ _ _ E2) as [-> | ->]; [exact N0|reflexivity]. }
  apply bind_inv in E. destruct E as (t2 & E2 & E). apply bind_inv in E. destruct E as (t3 & E3 & E).
  apply unit_attr_note in E2. apply unit_attr_note in E3. match type of E with Ok ?x = _ => assert (t' = x) as -> by congruence end.
  change (tr_curNote t3 = -1). congruence.
Qed.
Lemma phase_note fuel t p t' : track_set_phase fuel t p = Ok t' -> tr_curNote t' = tr_curNote t \/ tr_curNote t' = -1.
Proof.
  unfold track_set_phase. intros E. apply bind_inv in E. destruct E as ((t1 & b) & E1 & E). apply plain_note in E1. destruct b.
  - right. apply (mute_note (set_phase_inner fuel) t1); [|exact E]. intros x q x' EX. left. exact (inner_note _ _ _ _ EX).
  - left. congruence.
Qed.

Lemma min_note v : 0 <= v -> BKClamp v (BK_MIN_NOTE * 2 ^ BK_FINT20_SHIFT) (BK_MAX_NOTE * 2 ^ BK_FINT20_SHIFT) = Z.min v MAX_NOTE.
Proof. intros H. rewrite clamp_minmax by (unfold BK_MIN_NOTE, BK_MAX_NOTE, BK_FINT20_SHIFT; lia). unfold MAX_NOTE, BK_MIN_NOTE, BK_MAX_NOTE, BK_FINT20_SHIFT. lia. Qed.

Lemma note_reads fuel t v t' : BKTrackSetNote fuel t v = Ok t' ->
  tr_curNote t' = (if 0 <=? v then Z.min v MAX_NOTE else if (v =? -1) || (v =? -2) then -1 else tr_curNote t).
Proof.
  unfold BKTrackSetNote. rewrite Z.geb_leb. destruct (Z.leb_spec 0 v) as [HV|HV].
  - rewrite (min_note v HV). cbv zeta. intros E. apply bind_inv in E. destruct E as (sl & _ & E). apply bind_inv in E. destruct E as (t1 & _ & E).
    apply bind_inv in E. destruct E as (t2 & _ & E). apply bind_inv in E. destruct E as (t3 & E3 & E). apply bind_inv in E. destruct E as (t4 & E4 & E).
    apply unit_attr_note in E3. apply unit_attr_note in E4. match type of E with Ok ?x = _ => assert (t' = x) as -> by congruence end.
    change (tr_curNote t4 = Z.min v MAX_NOTE). rewrite E4, E3. reflexivity.
  - change BK_NOTE_RELEASE with (-1). change BK_NOTE_MUTE with (-2). destruct (Z.eqb_spec v (-1)) as [-> |N1].
    + cbn [orb]. cbv zeta. intros E. apply bind_inv in E. destruct E as (t1 & E1 & E). match type of E with Ok ?x = _ => assert (t' = x) as -> by congruence end.
      change (tr_curNote t1 = -1). clear E. change (has (t_curNote t (-1)) FInstr) with (has t FInstr) in E1. destruct (has t FInstr).
      * apply bind_inv in E1. destruct E1 as (t2 & E2 & E1). apply unit_attr_note in E1. rewrite E1. unfold BKTrackInstrumentRelease in E2.
        apply bind_inv in E2. destruct E2 as (t3 & E3 & E2). assert (t2 = BKTrackInstrumentUpdateFlags t3 false) as -> by congruence. rewrite flags_note.
        destruct (phase_note _ _ _ _ E3) as [-> | ->]; reflexivity.
      * destruct (un_sustain _); apply unit_attr_note in E1; exact E1.
    + destruct (Z.eqb_spec v (-2)) as [-> |N2]; cbn [orb].
      * apply mute_note. apply phase_note.
      * intros E. assert (t' = put t FNote true) as -> by congruence. reflexivity.
Qed.

(** ** A note that is set on a track without instrument *)

Lemma mute_tuned u v u' r : BKUnitSetAttr u BK_MUTE v = Ok (u', r) -> tuned u u' /\ un_mute u' = (if v =? 0 then 0 else 1).
Proof.
  intros E. change (BKUnitSetAttr u BK_MUTE v) with (@Ok (bkunit * Z) (set_mute u (if v =? 0 then 0 else 1), 0)) in E.
  match type of E with Ok (?x, 0) = _ => assert (Ex : u' = x) by congruence end. rewrite Ex. split; [repeat split|]. reflexivity.
Qed.

Lemma phase_ctx u u' r : BKUnitSetAttr u BK_PHASE (-1) = Ok (u', r) -> un_ctx u' = un_ctx u.
Proof.
  unfold BKUnitSetAttr. cbv zeta. change (BK_PHASE =? BK_DUTY_CYCLE) with false. change (BK_PHASE =? BK_WAVEFORM) with false.
  change (BK_PHASE =? BK_PHASE) with true. cbv iota. destruct (negb _).
  - intros E. match type of E with Ok (?x, _) = _ => assert (u' = x) as -> by congruence end. reflexivity.
  - intros E. match type of E with Ok (?x, _) = _ => assert (u' = x) as -> by congruence end. reflexivity.
Qed.

(** The state of a track after a note has been set: the slide of the note, and the unit. *)
Definition noted (t : track) (v : Z) (sl : slide) (u : bkunit) : track :=
  put (t_unit (t_curNote
    (if tr_curNote t =? -1 then t_arpeggio (t_note t (BKSlideStateHalt sl true)) (mk_arp 0 (ar_delta (tr_arpeggio t)) (ar_count (tr_arpeggio t)) (ar_notes (tr_arpeggio t)))
     else t_note t sl) v) u) FNote true.

Lemma set_note_free fuel t v : track_ok fuel t -> has t FInstr = false -> 0 <= v ->
  exists sl u, BKSlideStateSetValue (tr_note t) (Z.min v MAX_NOTE) = Ok sl /\ slide_in 0 0 MAX_NOTE sl /\
    BKTrackSetNote fuel t v = Ok (noted t (Z.min v MAX_NOTE) sl u) /\ track_ok fuel (noted t (Z.min v MAX_NOTE) sl u) /\ un_ctx u = un_ctx (tr_unit t).
Proof.
  intros H HI HV. destruct (set_note_ok fuel t v H ltac:(unfold BK_NOTE_RELEASE; intros ->; lia)) as (t' & E & H').
  assert (BN : 0 <= Z.min v MAX_NOTE <= MAX_NOTE) by (unfold MAX_NOTE; lia).
  destruct (in_value 0 0 MAX_NOTE ltac:(lia) (target0 0 ltac:(lia)) (target0 MAX_NOTE ltac:(unfold MAX_NOTE; lia)) (tr_note t) _ (tk_note _ _ H) BN) as (sl & ES & I & _).
  exists sl. pose proof E as E0. unfold BKTrackSetNote in E0. rewrite Z.geb_leb in E0. destruct (Z.leb_spec 0 v) as [_|C]; [|lia]. rewrite (min_note v HV) in E0. cbv zeta in E0.
  rewrite ES in E0. cbn [bind] in E0. set (n := Z.min v MAX_NOTE) in *. clearbody n.
  change (tr_curNote (t_note t sl)) with (tr_curNote t) in E0. change (has (t_note (t_note t sl) (BKSlideStateHalt (tr_note (t_note t sl)) true)) FInstr) with (has t FInstr) in E0.
  rewrite HI in E0. cbn [bind] in E0.
  set (t2 := if tr_curNote t =? -1 then t_arpeggio (t_note t (BKSlideStateHalt sl true)) (mk_arp 0 (ar_delta (tr_arpeggio t)) (ar_count (tr_arpeggio t)) (ar_notes (tr_arpeggio t))) else t_note t sl).
  match type of E0 with bind ?X _ = _ => assert (EX : X = Ok t2) end.
  { unfold t2. destruct (tr_curNote t =? -1); reflexivity. }
  rewrite EX in E0. cbn [bind] in E0. clear EX.
  assert (UC : tr_unit t2 = tr_unit t) by (unfold t2; destruct (tr_curNote t =? -1); reflexivity).
  apply bind_inv in E0. destruct E0 as (t3 & E3 & E0).
  assert (K3 : exists u3, t3 = t_unit t2 u3 /\ un_ctx u3 = un_ctx (tr_unit t)).
  { destruct (_ && _).
    - apply unit_attr_inv in E3. destruct E3 as (u & r & EU & ->). exists u. split; [reflexivity|]. rewrite UC in EU. exact (phase_ctx _ _ _ EU).
    - exists (tr_unit t2). split; [assert (t3 = t2) as -> by congruence; destruct t2; reflexivity|]. rewrite UC. reflexivity. }
  destruct K3 as (u3 & -> & C3). apply bind_inv in E0. destruct E0 as (t4 & E4 & E0). apply bind_inv in E0. destruct E0 as (t5 & E5 & E0).
  apply unit_attr_inv in E4. destruct E4 as (u4 & r4 & E4 & ->). apply unit_attr_inv in E5. destruct E5 as (u5 & r5 & E5 & ->).
  apply mute_tuned in E4. destruct E4 as ((_ & _ & _ & C4) & _). apply release_held in E5. destruct E5 as ((_ & _ & _ & _ & _ & C5) & _).
  exists u5. split; [exact ES|]. split; [exact I|].
  assert (ET : t' = noted t n sl u5).
  { match type of E0 with Ok ?x = _ => assert (t' = x) as -> by congruence end. unfold noted. fold t2. reflexivity. }
  rewrite <- ET. split; [exact E|]. split; [exact H'|]. rewrite C5. cbn [tr_unit t_unit]. rewrite C4. exact C3.
Qed.

(** ** What is played *)

Definition in_tune (t : track) : Prop := exists n, track_note t = Ok n /\ unit_plays t n.

Lemma track_note_arp t : has t FArp && fires (tr_arpDiv t) = false -> track_note (arp_part t) = track_note t.
Proof. unfold arp_part. destruct (has t FArp) eqn:E; [|reflexivity]. cbn [andb]. intros ->. unfold track_note, has. reflexivity. Qed.
Lemma arp_part_fields t : tr_waveform (arp_part t) = tr_waveform t /\ tr_samplePitch (arp_part t) = tr_samplePitch t /\ tr_rate (arp_part t) = tr_rate t.
Proof. unfold arp_part. destruct (has t FArp); auto. Qed.
Lemma marks_keep t t' : marks t t' -> tr_waveform t' = tr_waveform t /\ tr_samplePitch t' = tr_samplePitch t /\ tr_rate t' = tr_rate t.
Proof. intros (u & a & b & c & ->). auto. Qed.

Lemma tick_tuned fuel t : track_ok fuel t -> has t FInstr = false -> any_effect t = false -> un_ctx (tr_unit t) <> None ->
  has t FNote = true \/ in_tune t ->
  exists t', BKTrackTick fuel t = Ok t' /\ track_ok fuel t' /\ in_tune t' /\ un_ctx (tr_unit t') = un_ctx (tr_unit t).
Proof.
  intros H HI HE HC HT. destruct (tick_free fuel t H HI) as (t1 & t' & E & H' & H1 & M & ST & EC & PL & TU & R). rewrite HE in R. subst t'.
  exists t1. split; [exact E|]. split; [exact H1|]. split; [|exact EC].
  destruct (effect_on t HE) as (_ & _ & E3 & _ & E5).
  destruct (has t FNote) eqn:EN.
  - destruct (PL HC (or_introl eq_refl)) as (n & En & P). exists n. split; [rewrite (track_note_marks _ _ M); exact En|exact P].
  - destruct HT as [C|(n & En & P)]; [discriminate|]. destruct (has t FArp && fires (tr_arpDiv t)) eqn:EA.
    + apply andb_prop in EA. destruct (PL HC) as (m & Em & Pm); [right; right; right; exact EA|]. exists m. split; [rewrite (track_note_marks _ _ M); exact Em|exact Pm].
    + exists n. split; [rewrite (track_note_marks _ _ M), (track_note_arp t EA); exact En|].
      destruct (marks_keep _ _ M) as (K1 & K2 & K3). destruct (arp_part_fields t) as (L1 & L2 & L3).
      apply (plays_tuned t t1 n P (TU eq_refl E3 E5 eq_refl)); congruence.
Qed.

Lemma ticks_tuned fuel k : forall t, track_ok fuel t -> has t FInstr = false -> any_effect t = false -> un_ctx (tr_unit t) <> None ->
  (has t FNote = true /\ (1 <= k)%nat) \/ in_tune t ->
  exists t', ticks fuel k t = Ok t' /\ track_ok fuel t' /\ in_tune t' /\ un_ctx (tr_unit t') = un_ctx (tr_unit t) /\ ticked_by k t t'.
Proof.
  intros t H HI HE HC HT. destruct (ticks_ticked fuel k t H) as (t' & E & H' & TB). exists t'. split; [exact E|]. split; [exact H'|].
  cut (in_tune t' /\ un_ctx (tr_unit t') = un_ctx (tr_unit t)); [intros (A & B); auto|]. clear TB H'. revert t H HI HE HC HT E.
  induction k as [|k IH]; intros t H HI HE HC HT E; cbn [ticks] in E.
  - destruct HT as [(_ & C)|HT]; [lia|]. assert (t' = t) as -> by congruence. auto.
  - destruct (tick_ticked fuel t H) as (t1 & E1 & H1 & T1). destruct (tick_tuned fuel t H HI HE HC) as (t2 & E2 & _ & IT & C2); [destruct HT as [(A & _)|A]; auto|].
    rewrite E1 in E2. assert (t2 = t1) as -> by congruence. clear E2. rewrite E1 in E. cbn [bind] in E. rewrite <- C2. apply IH; try assumption.
    + rewrite (ti_flag _ _ T1) by discriminate. exact HI.
    + unfold any_effect. rewrite !(ti_flag _ _ T1) by discriminate. exact HE.
    + rewrite C2. exact HC.
    + right. exact IT.
Qed.

(** The note of a track without effects and instrument. *)
Lemma track_note_free t n0 : has t FInstr = false -> has t FVibrato = false -> BKSlideStateGetValue (tr_note t) = Ok n0 ->
  forall n, track_note t = Ok n -> n = n0 + (if has t FArp then ar_delta (tr_arpeggio t) else 0) + tr_pitch t.
Proof.
  intros HI HV EG n E. unfold track_note in E. rewrite EG, HI, HV in E. cbn [bind] in E. apply bind_inv in E. destruct E as (x & EX & E). cbn [bind] in E.
  apply chk_val in E. destruct (has t FArp).
  - apply chk_val in EX. lia.
  - assert (x = n0) by congruence. lia.
Qed.

Lemma reachable_ok fuel t : reachable fuel t -> track_ok fuel t.
Proof.
  intros (w & ops & t0 & ls & HW & E0 & HO & E). destruct (init_ok fuel w HW) as (t1 & E1 & H1). rewrite E0 in E1. assert (t1 = t0) as -> by congruence.
  destruct (truns_ok fuel ops t0 H1 HO) as (t2 & ls' & E2 & H2). rewrite E in E2. assert (t2 = t) as -> by congruence. exact H2.
Qed.

(** A note that is set, and [k] ticks. *)
Lemma note_played fuel t v k : track_ok fuel t -> has t FInstr = false -> any_effect t = false -> un_ctx (tr_unit t) <> None -> 0 <= v -> (1 <= k)%nat ->
  exists t1 t2 n0, BKTrackSetAttr fuel t BK_NOTE v = Ok (t1, 0) /\ ticks fuel k t1 = Ok t2 /\ track_ok fuel t2 /\ ticked_by k t1 t2 /\
    BKSlideStateGetValue (tr_note t2) = Ok n0 /\
    tr_arpeggio t1 = mk_arp (if tr_curNote t =? -1 then 0 else ar_offset (tr_arpeggio t)) (ar_delta (tr_arpeggio t)) (ar_count (tr_arpeggio t)) (ar_notes (tr_arpeggio t)) /\
    tr_arpDiv t1 = tr_arpDiv t /\
    unit_plays t2 (n0 + (if has t FArp then ar_delta (tr_arpeggio t2) else 0) + tr_pitch t) /\
    (sl_steps (tr_note t) = 0 -> sl_roundBias (tr_note t) = 0 -> n0 = Z.min v MAX_NOTE) /\
    has t2 FArp = has t FArp /\ tr_rate t2 = tr_rate t /\ tr_waveform t2 = tr_waveform t /\ tr_samplePitch t2 = tr_samplePitch t.
Proof.
  intros H HI HE HC HV HK. destruct (set_note_free fuel t v H HI HV) as (sl & u & ES & IS & EN & H1 & CU).
  set (t1 := noted t (Z.min v MAX_NOTE) sl u) in *.
  assert (F1 : forall x, x <> FNote -> has t1 x = has t x).
  { intros x X. unfold t1, noted. destruct (tr_curNote t =? -1); destruct x; try reflexivity; congruence. }
  assert (N1 : has t1 FNote = true) by (unfold t1, noted; destruct (tr_curNote t =? -1); reflexivity).
  assert (C1 : un_ctx (tr_unit t1) = un_ctx (tr_unit t)) by (unfold t1, noted; destruct (tr_curNote t =? -1); exact CU).
  assert (E1 : any_effect t1 = false) by (unfold any_effect; rewrite !F1 by discriminate; exact HE).
  destruct (ticks_tuned fuel k t1 H1) as (t2 & E2 & H2 & (n & En & PN) & C2 & TB).
  { rewrite F1 by discriminate. exact HI. } { exact E1. } { rewrite C1. exact HC. } { left. auto. }
  destruct (effect_on t1 E1) as (_ & _ & P0 & _ & V0).
  assert (NT : tr_note t2 = tr_note t1).
  { assert (X := tb_note _ _ _ TB). rewrite P0 in X. apply X. rewrite F1 by discriminate. exact HI. }
  destruct (get_note _ (tk_note _ _ H2)) as (n0 & EG & _). exists t1, t2, n0.
  assert (PT : tr_pitch t2 = tr_pitch t) by (rewrite (tb_pitch _ _ _ TB); unfold t1, noted; destruct (tr_curNote t =? -1); reflexivity).
  assert (FA : has t2 FArp = has t FArp) by (rewrite (tb_flag _ _ _ TB) by discriminate; apply F1; discriminate).
  split. { change (BKTrackSetAttr fuel t BK_NOTE v) with (let* x := BKTrackSetNote fuel t v in Ok (x, 0)). rewrite EN. reflexivity. }
  split; [exact E2|]. split; [exact H2|]. split; [exact TB|]. split; [exact EG|].
  split. { unfold t1, noted. destruct (tr_curNote t =? -1); [reflexivity|]. cbn. destruct (tr_arpeggio t); reflexivity. }
  split. { unfold t1, noted. destruct (tr_curNote t =? -1); reflexivity. }
  split.
  { rewrite (track_note_free t2 n0) with (n := n) in PN; try assumption.
    - rewrite FA, PT in PN. exact PN.
    - rewrite (tb_flag _ _ _ TB) by discriminate. rewrite F1 by discriminate. exact HI.
    - rewrite (tb_flag _ _ _ TB) by discriminate. exact V0. }
  split; [|split; [exact FA|split; [rewrite (tb_rate _ _ _ TB)|split; [rewrite (tb_waveform _ _ _ TB)|rewrite (tb_samplePitch _ _ _ TB)]]; unfold t1, noted; destruct (tr_curNote t =? -1); reflexivity]].
  intros S0 B0. assert (BN : 0 <= Z.min v MAX_NOTE <= MAX_NOTE) by (unfold MAX_NOTE; lia).
  destruct (in_value 0 0 MAX_NOTE ltac:(lia) (target0 0 ltac:(lia)) (target0 MAX_NOTE ltac:(unfold MAX_NOTE; lia)) (tr_note t) _ (tk_note _ _ H) BN) as (sl' & ES' & _ & EV & _ & EB).
  rewrite ES in ES'. assert (sl' = sl) as -> by congruence. destruct (EB S0) as (VV & BB). change (P 0) with 1 in *.
  rewrite NT in EG. unfold t1, noted in EG. destruct (tr_curNote t =? -1).
  - change (BKSlideStateGetValue (BKSlideStateHalt sl true) = Ok n0) in EG. rewrite (get_value 0) in EG; [|exact (proj1 (in_halt 0 0 MAX_NOTE sl true IS))|lia].
    cbn [BKSlideStateHalt sl_value sl_roundBias] in EG. rewrite EV, BB, B0 in EG. rewrite Z.div_1_r in EG. assert (n0 = Z.min v MAX_NOTE * 1 + 0) by congruence. lia.
  - change (BKSlideStateGetValue sl = Ok n0) in EG. rewrite (get_value 0) in EG; [|exact (proj1 IS)|lia].
    rewrite VV, BB, B0 in EG. rewrite Z.div_1_r in EG. assert (n0 = Z.min v MAX_NOTE * 1 + 0) by congruence. lia.
Qed.

(** ** The volumes after an update *)

Lemma note_volume t t' : BKTrackUpdateUnitNote t = Ok t' -> un_volume (tr_unit t') = un_volume (tr_unit t).
Proof.
  unfold BKTrackUpdateUnitNote. destruct (un_ctx _); [|intros E; congruence]. intros E. apply bind_inv in E. destruct E as (n & _ & E). destruct (negb _).
  - apply bind_inv in E. destruct E as (p & _ & E). destruct (_ =? 0); [discriminate|]. apply unit_attr_inv in E. destruct E as (u & r & E & ->).
    match type of E with BKUnitSetAttr ?w BK_PERIOD ?x = _ => change (BKUnitSetAttr w BK_PERIOD x) with (let* v := abs32 x in Ok (set_period w (BKMax v BK_MIN_PERIOD), 0)) in E end.
    apply bind_inv in E. destruct E as (v & _ & E). match type of E with Ok (?x, _) = _ => assert (u = x) as -> by congruence end. reflexivity.
  - apply bind_inv in E. destruct E as (m & _ & E). apply bind_inv in E. destruct E as (p & _ & E). apply unit_attr_inv in E. destruct E as (u & r & E & ->).
    match type of E with BKUnitSetAttr ?w BK_SAMPLE_PERIOD ?x = _ => change (BKUnitSetAttr w BK_SAMPLE_PERIOD x) with
      (let* v := abs32 x in
       let v := BKClamp v BK_MIN_SAMPLE_PERIOD BK_MAX_SAMPLE_PERIOD in
       Ok (set_sm w (s_period (un_sample w) (if sm_period (un_sample w) <? 0 then - v else v)), 0)) in E end.
    apply bind_inv in E. destruct E as (v & _ & E). cbv zeta in E. match type of E with Ok (?x, _) = _ => assert (u = x) as -> by congruence end. reflexivity.
Qed.
Lemma duty_volume t t' : BKTrackUpdateUnitDutyCycle t = Ok t' -> un_volume (tr_unit t') = un_volume (tr_unit t).
Proof.
  unfold BKTrackUpdateUnitDutyCycle. intros E. apply bind_inv in E. destruct E as (d & _ & E). apply unit_attr_inv in E. destruct E as (u & r & E & ->).
  unfold BKUnitSetAttr in E. cbv zeta in E. change (BK_DUTY_CYCLE =? BK_DUTY_CYCLE) with true in E. cbv iota in E. destruct (negb _).
  - match type of E with Ok (?x, _) = _ => assert (u = x) as -> by congruence end. destruct (_ && _); reflexivity.
  - assert (u = tr_unit t) as -> by congruence. reflexivity.
Qed.
Lemma measures_marks t t' l : marks t t' -> measures t l -> measures t' l.
Proof. intros (u & a & b & c & ->) H. exact H. Qed.

(** The volumes of the unit are as told by these levels. *)
Definition volumes (t : track) (l : levels) : Prop :=
  forall k, 0 <= k < (if lv_stereo l then 2 else 8) -> BKTrackGetAttr t (BK_VOLUME_0 + k) = Ok (0, Some (channel l k)).

Lemma volume_attr t k : 0 <= k < 8 -> (k < Z.of_nat (length (un_volume (tr_unit t)))) -> BKTrackGetAttr t (BK_VOLUME_0 + k) = Ok (0, Some (nth (Z.to_nat k) (un_volume (tr_unit t)) 0)).
Proof.
  intros K L. assert (D : k = 0 \/ k = 1 \/ k = 2 \/ k = 3 \/ k = 4 \/ k = 5 \/ k = 6 \/ k = 7) by lia.
  repeat (destruct D as [-> |D]); try subst k;
  match goal with |- BKTrackGetAttr ?t (BK_VOLUME_0 + ?k) = _ => change (BKTrackGetAttr t (BK_VOLUME_0 + k)) with (let* v := aget (un_volume (tr_unit t)) k in @Ok (Z * option Z) (0, Some v)) end;
  rewrite (aget_nth _ _ 0) by lia; reflexivity.
Qed.

Lemma update_loud fuel t t1 : track_ok fuel t -> has t FVolume = true -> BKTrackUpdateUnit t = Ok t1 ->
  exists l, measures t1 l /\ volumes t1 l /\ 0 <= level l <= tr_master t1.
Proof.
  intros H HF E. destruct (update_ok fuel t H) as (t1' & E' & H1 & M). rewrite E in E'. assert (t1' = t1) as -> by congruence. clear E'.
  destruct (volume_formula fuel t H) as (l & u & ML & EV & HV & BL & FO). exists l. split; [apply (measures_marks t); assumption|].
  assert (VK : un_volume (tr_unit t1) = un_volume u).
  { unfold BKTrackUpdateUnit in E. rewrite HF, EV in E. cbn [bind] in E. apply bind_inv in E. destruct E as (t2 & E2 & E).
    assert (V2 : un_volume (tr_unit t2) = un_volume u).
    { destruct (has _ FNote).
      - apply bind_inv in E2. destruct E2 as (t3 & E3 & E2). apply note_volume in E3. match type of E2 with Ok ?x = _ => assert (t2 = x) as -> by congruence end. exact E3.
      - match type of E2 with Ok ?x = _ => assert (t2 = x) as -> by congruence end. reflexivity. }
    destruct (has t2 FDuty).
    - apply bind_inv in E. destruct E as (t3 & E3 & E). apply duty_volume in E3. match type of E with Ok ?x = _ => assert (t1 = x) as -> by congruence end.
      change (un_volume (tr_unit t3) = un_volume u). congruence.
    - assert (t1 = t2) as -> by congruence. exact V2. }
  split; [|destruct M as (? & ? & ? & ? & ->); exact BL].
  intros k HK. rewrite volume_attr.
  - rewrite VK, FO by exact HK. reflexivity.
  - destruct (lv_stereo l); lia.
  - destruct (tk_unit _ _ H1) as ((W & _) & _). rewrite (proj1 (wf_volume _ W)). destruct (lv_stereo l); lia.
Qed.
