(** Properties of melodies with an envelope of attack, decay, sustain and release: C120, C121. *)
From Verif Require Import CInt CIntFacts DataModel UnitModel UnitSpec UnitProofs UnitProofs2 UnitInv UnitInv2 UnitInv3
  InterpModel SlideIn ToneModel PropertiesTone SequenceModel SequenceSpec SequenceProofs InstrumentProofs InstrBounds PropertiesSequence
  TrackModel TrackSpec TrackInv TrackProofs TrackProofs2 TrackProofs3 TrackProofs4 TrackVolume TrackPlay TrackTicks TrackNote TrackAttrs TrackInstr TrackInstr2 TrackInstr3 TrackInstr4 TrackInstr5
  TrackMelody TrackMelody2 TrackMelody3 TrackMelody4 TrackAdsr TrackAdsr2 TrackAdsr3 PropertiesTrack PropertiesInstr PropertiesMelody.
Ltac Zify.zify_post_hook ::= idtac.
Local Notation ticked := SequenceSpec.ticked.
Local Notation played := SequenceSpec.played.

(** * C120 *)

(** A singer who knows the note, whether it is held, fades or is silent, and where the envelope is. *)
Inductive breath := Mum | Sings | Fades.
Record singer := mk_singer { sg_note : Z; sg_breath : breath; sg_env : envelope }.
Section Singer.
Context (a de su re : Z).
Definition singer_step (p : singer) (e : event) : singer :=
  let l := env_level a de su re (sg_env p) in
  match e with
  | Key v => match sg_breath p with Sings => mk_singer v Sings (sg_env p) | _ => mk_singer v Sings (Att l 0) end
  | Up =>
    match sg_env p with
    | Rel _ _ => p
    | _ => if re =? 0 then mk_singer (sg_note p) Mum (Mut 0)
           else mk_singer (sg_note p) (match sg_breath p with Mum => Mum | _ => Fades end) (Rel l 0)
    end
  | Cut => mk_singer (sg_note p) Mum (Mut (l / 32768 * 32768))
  | Tick =>
    let e := match sg_env p with
             | Att w n => Att w (S n)
             | Rel w n => if Z.of_nat (S n) <? re then Rel w (S n) else Mut 0
             | Mut w => Mut w
             end in
    mk_singer (sg_note p) (match e with Mut _ => Mum | _ => sg_breath p end) e
  end.
(** Setting the instrument begins the envelope and stops it at once. *)
Definition rested : singer := mk_singer 0 Mum (Mut (env_level a de su re (Att 0 0) / 32768 * 32768)).
Definition singer_after (es : list event) : singer := fold_left singer_step es rested.
Definition singer_value (p : singer) : Z := env_level a de su re (sg_env p) / 32768.
Definition singer_values (p : singer) (j : nat) : Z := if (j =? 0)%nat then singer_value p else 0.

Hypothesis Ha : 0 <= a < 2 ^ 31.
Hypothesis Hd : 0 <= de < 2 ^ 31.
Hypothesis Hr : 0 <= re < 2 ^ 31.
Hypothesis Hs : 0 <= su <= 32767.
Context (sq : sequence).
Hypothesis EC : BKInstrumentSetEnvelopeADSR a de su re = Ok (Some sq, 0).
Context (fuel : nat).
Hypothesis HF : (8 < fuel)%nat.
Let sqs : list (option sequence) := [Some sq; None; None; None].

Lemma adsr_ok : sequences_ok fuel sqs.
Proof.
  destruct (adsr_facts a de su re Ha Hd Hr Hs sq EC) as ([W V TT FS HB] & FC & LN). unfold sequences_ok, slot_ranges, sqs. constructor; [|repeat (constructor; [exact I|]); constructor].
  split; [|unfold seq_bnd; rewrite V, FC; cbn [fst snd]; lia]. unfold seq_ok. rewrite V. split; [cbn; lia|]. exists 2%nat, 1%nat. auto.
Qed.

(** ** The track does what the singer does *)

Definition follows (t0 : track) (d : Z) (p : singer) (t : track) : Prop :=
  ready fuel sqs d t /\ settings t0 t /\ holds a de su re sq (sg_env p) (tr_istate t) /\
  match sg_breath p with
  | Mum => silent t /\ tr_curNote t = -1 /\ match sg_env p with Att _ _ => False | _ => True end
  | Sings => un_mute (tr_unit t) = 0 /\ tr_curNote t = Z.min (sg_note p) MAX_NOTE /\ tr_curNote t <> -1 /\ BKSlideStateGetValue (tr_note t) = Ok (Z.min (sg_note p) MAX_NOTE) /\ match sg_env p with Att _ _ => True | _ => False end
  | Fades => un_mute (tr_unit t) = 0 /\ tr_curNote t = -1 /\ BKSlideStateGetValue (tr_note t) = Ok (Z.min (sg_note p) MAX_NOTE) /\ match sg_env p with Rel _ _ => True | _ => False end
  end.

Lemma ready_id d t : ready fuel sqs d t -> exists id, tr_instr t = Some (id, BKInstrumentUpdateNumSequences sqs) /\ has t FInstr = true /\ Forall2 (slot_ok fuel) sqs (is_states (tr_istate t)).
Proof.
  intros RD. destruct (track_slots fuel sqs t (rd_ok _ _ _ _ RD) (rd_slots _ _ _ _ RD)) as (F & HI). destruct (rd_slots _ _ _ _ RD) as (id & EI). exists id. split; [exact EI|]. split; [exact HI|]. exact (sok_slots _ _ _ _ F).
Qed.
Lemma ready_count d t : ready fuel sqs d t -> 1 <= d < 2147483648 /\ exists j, tr_instrDiv t = mk_dstate d ((- Z.of_nat j) mod d).
Proof.
  intros RD. destruct (tk_instrDiv _ _ (rd_ok _ _ _ _ RD)) as (D1 & D2). pose proof (rd_div _ _ _ _ RD) as DV. rewrite DV in *. split; [exact D1|].
  exists (Z.to_nat (d - ds_counter (tr_instrDiv t))). rewrite Z2Nat.id by lia. destruct (tr_instrDiv t) as [x c]. cbn [ds_divider ds_counter] in *. subst x. f_equal.
  replace (- (d - c)) with (c + (-1) * d) by lia. rewrite Z.mod_add by lia. symmetry. apply Z.mod_small. lia.
Qed.
Lemma follows_voice t0 d p t : follows t0 d p t -> sg_breath p <> Mum -> exists j, voice fuel sqs d j (Z.min (sg_note p) MAX_NOTE) t.
Proof.
  intros (RD & _ & HO & K) NM. destruct (ready_count d t RD) as (_ & j & DV). exists j. pose proof (holds_playing a de su re sq fuel HF _ _ HO) as PL.
  destruct (sg_breath p); [congruence| |]; destruct (sg_env p); try (exfalso; tauto); apply ready_voice; tauto.
Qed.

Lemma follows_key t0 d p t v : follows t0 d p t -> 0 <= v -> exists t', BKTrackSetNote fuel t v = Ok t' /\ follows t0 d (singer_step p (Key v)) t'.
Proof.
  intros (RD & SE & HO & K) HV. destruct (ready_id d t RD) as (id & EI & HI & F2).
  assert (NEW : tr_curNote t = -1 -> exists t', BKTrackSetNote fuel t v = Ok t' /\ follows t0 d (mk_singer v Sings (Att (env_level a de su re (sg_env p)) 0)) t').
  { intros CU. destruct (ready_attack fuel sqs d t v RD CU HV) as (t' & sts & E & RD' & SE' & MU & CU' & VO & _). exists t'. split; [exact E|]. split; [exact RD'|]. split; [exact (settings_trans _ _ _ SE SE')|].
    cbn [sg_env sg_breath sg_note]. split.
    - apply (to_attack a de su re Ha Hd Hr Hs sq EC fuel HF _ (tr_istate t)); [exact (holds_valued a de su re Hs sq _ _ HO)|].
      apply (attack_istate fuel id _ t v t' EI HI); [unfold slot_sequence; rewrite EI; reflexivity|exact CU|exact HV|exact E].
    - split; [exact MU|]. split; [exact CU'|]. split; [rewrite CU'; unfold MAX_NOTE; lia|]. split; [exact (vo_note _ _ _ _ _ _ VO)|exact I]. }
  unfold singer_step. cbv zeta. destruct (sg_breath p) eqn:EB.
  - apply NEW. tauto.
  - destruct K as (MU & CU & NC & G & EA). destruct (ready_legato fuel sqs d t v RD NC HV) as (t' & E & RD' & SE' & MU' & CU' & G' & IS' & DI'). exists t'. split; [exact E|].
    split; [exact RD'|]. split; [exact (settings_trans _ _ _ SE SE')|]. cbn [sg_env sg_breath sg_note]. rewrite IS'. split; [exact HO|]. split; [exact MU'|]. split; [exact CU'|]. split; [rewrite CU'; unfold MAX_NOTE; lia|]. auto.
  - apply NEW. tauto.
Qed.
Lemma follows_cut t0 d p t : follows t0 d p t -> exists t', BKTrackSetNote fuel t BK_NOTE_MUTE = Ok t' /\ follows t0 d (singer_step p Cut) t'.
Proof.
  intros (RD & SE & HO & K). destruct (ready_id d t RD) as (id & EI & HI & F2). destruct (ready_mute fuel sqs d t RD) as (t' & E & RD' & SE' & SI & CU). exists t'. split; [exact E|]. split; [exact RD'|].
  split; [exact (settings_trans _ _ _ SE SE')|]. cbn [singer_step sg_env sg_breath sg_note]. split; [|auto].
  apply (to_mute a de su re Ha Hd Hr Hs sq EC fuel HF _ (tr_istate t)); [exact (holds_valued a de su re Hs sq _ _ HO)|exact F2|exact (mute_istate fuel id _ t t' EI HI E)].
Qed.
Lemma follows_up t0 d p t : follows t0 d p t -> exists t', BKTrackSetNote fuel t BK_NOTE_RELEASE = Ok t' /\ follows t0 d (singer_step p Up) t'.
Proof.
  intros FO. pose proof FO as (RD & SE & HO & K). destruct (ready_id d t RD) as (id & EI & HI & F2). destruct (ready_release fuel sqs d t RD) as (t' & E & RD' & SE' & CU & SI). exists t'. split; [exact E|].
  destruct (release_istate fuel id _ t t' EI HI E) as (PT & _). pose proof (to_release a de su re Ha Hd Hr Hs sq EC fuel HF _ _ _ HO F2 PT) as TR.
  pose proof (settings_trans _ _ _ SE SE') as ST. cbn [singer_step]. cbv zeta. destruct (sg_env p) as [w n|w n|w] eqn:EE.
  - destruct (sg_breath p) eqn:EB; [tauto| |tauto]. assert (HP : is_phase (tr_istate t) = 1) by (destruct HO as (_ & ? & ? & _ & _ & _ & _ & (P & _)); exact P).
    destruct (follows_voice t0 d p t FO ltac:(rewrite EB; discriminate)) as (j & VO).
    assert (RO : release_ok (tr_unit t)) by (intros C; rewrite (rd_sustain _ _ _ _ RD) in C; discriminate).
    destruct (voice_release fuel sqs d j _ t VO HP RO) as (t2 & E2 & _ & K2). assert (t2 = t') as -> by congruence. clear E2. unfold sqs in K2.
    rewrite (holds_released a de su re Ha Hd Hr Hs sq EC fuel HF w n _ HO) in K2. destruct (re =? 0).
    + change (0 =? 0) with true in K2. split; [exact RD'|]. split; [exact ST|]. cbn [sg_env sg_breath sg_note]. split; [exact TR|]. auto.
    + change (1 =? 0) with false in K2. destruct K2 as (VO' & _ & MU' & _). destruct K as (MU & _).
      split; [exact RD'|]. split; [exact ST|]. cbn [sg_env sg_breath sg_note]. split; [exact TR|]. split; [congruence|]. split; [exact CU|]. split; [exact (vo_note _ _ _ _ _ _ VO')|exact I].
  - assert (HP : is_phase (tr_istate t) = 2) by (destruct HO as (_ & ? & ? & _ & _ & _ & _ & (P & _)); exact P).
    destruct (ready_again fuel sqs d t RD HP) as (t2 & E2 & _ & _ & _ & MU' & IS' & _ & NO'). assert (t2 = t') as -> by congruence.
    split; [exact RD'|]. split; [exact ST|]. rewrite IS', EE. split; [exact HO|]. destruct (sg_breath p); [split; [apply SI; tauto|]; tauto|tauto|]. rewrite NO'. split; [destruct K as (MU & _); congruence|]. tauto.
  - destruct (sg_breath p) eqn:EB; [|tauto|tauto]. destruct K as (S0 & _). destruct (re =? 0).
    + split; [exact RD'|]. split; [exact ST|]. cbn [sg_env sg_breath sg_note]. auto.
    + split; [exact RD'|]. split; [exact ST|]. cbn [sg_env sg_breath sg_note]. auto.
Qed.
Lemma follows_tick t0 d p t : follows t0 d p t -> exists t', BKTrackTick fuel t = Ok t' /\ follows t0 d (singer_step p Tick) t' /\ heard t'.
Proof.
  intros FO. pose proof FO as (RD & SE & HO & K). destruct (ready_id d t RD) as (id & EI & HI & F2). destruct (ready_tick fuel sqs d t RD) as (t' & E & RD' & SE' & CU & HE). exists t'. split; [exact E|]. split; [|exact HE].
  pose proof (to_tick a de su re Ha Hd Hr Hs sq EC fuel HF _ id t t' HO (rd_ok _ _ _ _ RD) EI HI (rd_effect _ _ _ _ RD) (rd_arp _ _ _ _ RD) E F2) as HO'.
  split; [exact RD'|]. split; [exact (settings_trans _ _ _ SE SE')|]. cbn [singer_step]. cbv zeta. fold (env_tick re (sg_env p)). cbn [sg_env sg_breath sg_note]. split; [exact HO'|].
  destruct (sg_breath p) eqn:EB.
  - destruct K as (S0 & C0 & NA). assert (M : match env_tick re (sg_env p) with Att _ _ => False | _ => True end) by (destruct (sg_env p); cbn [env_tick]; [exact NA|destruct (_ <? re); exact I|exact I]).
    assert (R : silent t' /\ tr_curNote t' = -1 /\ match env_tick re (sg_env p) with Att _ _ => False | _ => True end) by (split; [exact (tick_silent _ _ _ E S0)|]; split; [destruct CU as [->| ->]; [exact C0|reflexivity]|exact M]).
    destruct (env_tick re (sg_env p)); exact R.
  - destruct (follows_voice t0 d p t FO ltac:(rewrite EB; discriminate)) as (j & VO). destruct (ready_count d t RD) as (HD & _). destruct K as (MU & C & NC & G & EA). destruct (sg_env p) as [w n|w n|w] eqn:EE; [|contradiction|contradiction].
    pose proof (holds_ticked a de su re Ha Hd Hr Hs sq EC fuel HF _ _ (if Z.of_nat j mod d =? 0 then 1 else 0) HO ltac:(destruct (_ =? 0); lia)) as HT. cbn [env_tick] in *.
    assert (HU : forall i, (i < 1)%nat -> (0 <? unfinished sqs (played fuel sqs (beats d j i) (is_states (tr_istate t)))) && (unfinished sqs (played fuel sqs (beats d j (S i)) (is_states (tr_istate t))) =? 0) = false).
    { intros i Hi. replace i with O by lia. rewrite beats_1. exact HT. }
    destruct (voice_ticks fuel sqs d j _ 1 t HD VO HU) as (t2 & E2 & V2 & _ & MU2 & _). assert (t2 = t') as -> by (cbn [ticks] in E2; rewrite E in E2; cbn [bind] in E2; congruence).
    assert (CC : tr_curNote t' = tr_curNote t).
    { pose proof VO as [VH VSL VHE VHA VHC VT VPL VDV VNT VEM].
      destruct (instr_ticks fuel sqs d 1 HD j t VH VSL VHE VHA VHC VT VPL VDV HU) as (s2 & t3 & E3 & _ & M3 & _). assert (t3 = t') as -> by (cbn [ticks] in E3; rewrite E in E3; cbn [bind] in E3; congruence). destruct M3 as (? & ? & ? & ? & ->). reflexivity. }
    rewrite CC. split; [congruence|]. split; [exact C|]. split; [exact NC|]. split; [exact (vo_note _ _ _ _ _ _ V2)|exact I].
  - destruct (follows_voice t0 d p t FO ltac:(rewrite EB; discriminate)) as (j & VO). destruct (ready_count d t RD) as (HD & _). destruct K as (MU & C & G & EA). destruct (sg_env p) as [w n|w n|w] eqn:EE; [contradiction| |contradiction].
    pose proof (holds_ticked a de su re Ha Hd Hr Hs sq EC fuel HF _ _ (if Z.of_nat j mod d =? 0 then 1 else 0) HO ltac:(destruct (_ =? 0); lia)) as HT. cbn [env_tick] in *.
    assert (CC : tr_curNote t' = -1) by (destruct CU as [->| ->]; [exact C|reflexivity]).
    destruct (Z.of_nat (S n) <? re).
    + destruct (voice_ticks fuel sqs d j _ 1 t HD VO) as (t2 & E2 & V2 & _ & MU2 & _).
      { intros i Hi. replace i with O by lia. rewrite beats_1. exact HT. }
      assert (t2 = t') as -> by (cbn [ticks] in E2; rewrite E in E2; cbn [bind] in E2; congruence). split; [congruence|]. split; [exact CC|]. split; [exact (vo_note _ _ _ _ _ _ V2)|exact I].
    + assert (EN : exists t2, BKTrackTick fuel t = Ok t2 /\ silent t2 /\ tr_curNote t2 = -1).
      { apply (ready_end fuel sqs d j _ t VO). rewrite (vo_div _ _ _ _ _ _ VO). destruct (div_count d j HD) as (_ & ->). exact HT. }
      destruct EN as (t2 & E2 & S2 & C2). assert (t2 = t') as -> by congruence. auto.
Qed.
Lemma follows_run t0 d es : Forall playable es -> forall p t, follows t0 d p t ->
  exists t', performed fuel es t t' /\ follows t0 d (fold_left singer_step es p) t' /\ (es <> [] -> last es Cut = Tick -> heard t').
Proof.
  induction 1 as [|e es PE _ IH]; intros p t R; cbn [performed fold_left]; [exists t; split; [reflexivity|]; split; [exact R|congruence]|].
  assert (S1 : exists t1, did fuel e t t1 /\ follows t0 d (singer_step p e) t1 /\ (e = Tick -> heard t1)).
  { destruct e as [v| | |]; cbn [did playable] in *.
    - destruct (follows_key t0 d p t v R PE) as (t1 & E & R1). exists t1. split; [unfold BKTrackSetAttr; rewrite E; reflexivity|]. split; [exact R1|discriminate].
    - destruct (follows_up t0 d p t R) as (t1 & E & R1). exists t1. split; [unfold BKTrackSetAttr; rewrite E; reflexivity|]. split; [exact R1|discriminate].
    - destruct (follows_cut t0 d p t R) as (t1 & E & R1). exists t1. split; [unfold BKTrackSetAttr; rewrite E; reflexivity|]. split; [exact R1|discriminate].
    - destruct (follows_tick t0 d p t R) as (t1 & E & R1 & HE). exists t1. auto. }
  destruct S1 as (t1 & D1 & R1 & H1). destruct (IH _ t1 R1) as (t' & P' & R' & H'). exists t'. split; [exists t1; auto|]. split; [exact R'|]. intros _ L.
  destruct es as [|e' es]; [assert (t' = t1) as -> by exact P'; apply H1; exact L|]. apply H'; [discriminate|exact L].
Qed.

(** Between the calls the slots have the values of the singer. *)
Lemma follows_values t0 d p t : follows t0 d p t -> forall i, (i < 4)%nat -> exists st, nth_error (is_states (tr_istate t)) i = Some st /\ st_value st = singer_values p i.
Proof.
  intros (RD & _ & HO & _) i Hi. destruct (holds_valued a de su re Hs sq _ _ HO) as (_ & st & rest & ES & L & _ & EV). destruct i as [|i].
  - exists st. rewrite ES. split; [reflexivity|]. rewrite EV, Z.shiftr_div_pow2 by lia. reflexivity.
  - destruct (rd_empty _ _ _ _ RD (S i) 0) as (st' & E1 & E2).
    + unfold sqs. destruct i as [|[|[|i]]]; [reflexivity|reflexivity|reflexivity|lia].
    + destruct i as [|[|[|i]]]; [reflexivity|reflexivity|reflexivity|lia].
    + exists st'. split; [exact E1|exact E2].
Qed.
End Singer.

(** An instrument with an envelope in the slot of the volume is set on a silent track, and notes
    are set, released and muted between ticks in any order.  The track sounds exactly when the
    singer does, and after each tick it plays the note of the singer at the level of the envelope:
    [a] ticks up to the full level, [de] ticks to the sustained one, after a release [re] ticks to
    zero, where the note ends.  A note begins where the envelope has been left. *)
Theorem C120_adsr fuel t id a de su re sq size es : reachable fuel t -> idle t -> BKTrackGetAttr t BK_MUTE <> Ok (0, Some 0) -> un_sustain (tr_unit t) = false ->
  0 <= a < 2 ^ 31 -> 0 <= de < 2 ^ 31 -> 0 <= su <= 32767 -> 0 <= re < 2 ^ 31 -> BKInstrumentSetEnvelopeADSR a de su re = Ok (Some sq, 0) -> (8 < fuel)%nat ->
  other_instrument t id -> Forall playable es ->
  let p := singer_after a de su re es in
  exists t1 t2, BKTrackSetPtr fuel t BK_INSTRUMENT (TInstr id [Some sq; None; None; None]) size = Ok (t1, 0) /\ performed fuel es t1 t2 /\
    match sg_breath p with
    | Mum => BKTrackGetAttr t2 BK_MUTE <> Ok (0, Some 0) /\ BKTrackGetAttr t2 BK_NOTE = Ok (0, Some (-1))
    | b => BKTrackGetAttr t2 BK_MUTE = Ok (0, Some 0) /\ (last es Cut = Tick -> heard_with t (sg_note p) (singer_values a de su re p) t2) /\ 0 <= singer_value a de su re p <= 32767 /\
      BKTrackGetAttr t2 BK_NOTE = Ok (0, Some match b with Sings => Z.min (sg_note p) MAX_NOTE | _ => -1 end)
    end.
Proof.
  intros HR (HC & HN & HE & HA & S0 & B0) HM SU Ha Hd Hs Hr EC HF NS PE p. pose proof (reachable_ok _ _ HR) as H. set (sqs := [Some sq; None; None; None]).
  assert (ES : same_instr (Some (id, BKInstrumentUpdateNumSequences sqs)) (tr_instr t) = false).
  { unfold other_instrument in NS. cbn [same_instr]. destruct (tr_instr t) as [[id' i']|]; [apply Z.eqb_neq; exact NS|reflexivity]. }
  assert (SI : silent t) by (intros Q; apply HM; rewrite mute_attr, Q; reflexivity). pose proof (adsr_ok a de su re Ha Hd Hr Hs sq EC fuel HF) as HQ. fold sqs in HQ.
  destruct (ready_set fuel t id sqs H HQ HC ES HN HE HA S0 B0 SU SI) as (t1 & E1 & RD & SE & SI1 & CU1). set (d := ds_divider (tr_instrDiv t)) in *.
  pose proof (to_set a de su re Ha Hd Hr Hs sq EC fuel HF t id t1 H HQ ES HN E1) as HO.
  destruct (follows_run a de su re Ha Hd Hr Hs sq EC fuel HF t d es PE (rested a de su re) t1) as (t2 & P2 & R2 & H2).
  { split; [exact RD|]. split; [exact SE|]. split; [exact HO|]. cbn. auto. }
  exists t1, t2. split; [unfold BKTrackSetPtr; rewrite E1; reflexivity|]. split; [exact P2|]. fold (singer_after a de su re es) in R2. fold p in R2.
  assert (HL : last es Cut = Tick -> heard t2) by (intros L; apply H2; [intros ->; discriminate L|exact L]).
  assert (GN : BKTrackGetAttr t2 BK_NOTE = Ok (0, Some (tr_curNote t2))) by reflexivity.
  pose proof (follows_values a de su re Hs sq fuel HF t d p t2 R2) as FV.
  assert (LV : 0 <= singer_value a de su re p <= 32767).
  { destruct R2 as (_ & _ & HO2 & _). destruct (holds_valued a de su re Hs sq _ _ HO2) as (B & _). unfold env_in, FULL in B. unfold singer_value.
    split; [apply Z.div_pos; lia|]. assert (env_level a de su re (sg_env p) / 32768 <= 32767 * 32768 / 32768) by (apply Z.div_le_mono; lia). rewrite Z.div_mul in * by lia. lia. }
  pose proof (follows_voice a de su re Ha Hd Hr Hs sq fuel HF t d p t2 R2) as VO. destruct R2 as (RD2 & SE2 & _ & K). destruct (sg_breath p).
  - destruct K as (S2 & C2 & _). rewrite mute_attr. unfold silent in S2. split; [congruence|]. rewrite GN, C2. reflexivity.
  - destruct (VO ltac:(discriminate)) as (j & V). destruct K as (MU & CU & _). split; [rewrite mute_attr, MU; reflexivity|]. split; [|split; [exact LV|rewrite GN, CU; reflexivity]].
    intros L. exact (voice_with _ _ _ _ _ _ _ _ V SE2 (HL L) FV).
  - destruct (VO ltac:(discriminate)) as (j & V). destruct K as (MU & CU & _). split; [rewrite mute_attr, MU; reflexivity|]. split; [|split; [exact LV|rewrite GN, CU; reflexivity]].
    intros L. exact (voice_with _ _ _ _ _ _ _ _ V SE2 (HL L) FV).
Qed.

(** A note of four ticks up, two ticks down to a half, three ticks of release; bound to another
    one, released and struck again before it has ended. *)
Definition rising : option sequence := match BKInstrumentSetEnvelopeADSR 4 2 16384 3 with Ok (o, _) => o | Err _ => None end.
Lemma rising_ok : exists sq, rising = Some sq /\ BKInstrumentSetEnvelopeADSR 4 2 16384 3 = Ok (Some sq, 0).
Proof. eexists. split; vm_compute; reflexivity. Qed.
Definition aria : list event := [Key 50331648; Tick; Tick; Key 62914560; Tick; Tick; Tick; Tick; Tick; Up; Tick].
Example aria_singer :
  map (fun n => singer_value 4 2 16384 3 (singer_after 4 2 16384 3 (Key 50331648 :: repeat Tick n))) (seq 0 9) = [0; 8191; 16383; 24575; 32767; 24575; 16384; 16384; 16384] /\
  (let p := singer_after 4 2 16384 3 aria in sg_note p = 62914560 /\ sg_breath p = Fades /\ singer_value 4 2 16384 3 p = 10922) /\
  (let p := singer_after 4 2 16384 3 (aria ++ [Tick; Key 1048576; Tick]) in sg_note p = 1048576 /\ sg_breath p = Sings /\ singer_value 4 2 16384 3 p = 12287) /\
  sg_breath (singer_after 4 2 16384 3 (aria ++ [Tick])) = Fades /\ sg_breath (singer_after 4 2 16384 3 (aria ++ [Tick; Tick])) = Mum.
Proof. vm_compute. repeat split; reflexivity. Qed.
Example aria_heard : exists sq t1 t2 l, rising = Some sq /\ BKTrackSetPtr 1000 (track_after BK_SQUARE silent_ops) BK_INSTRUMENT (TInstr 1 [Some sq; None; None; None]) 8 = Ok (t1, 0) /\
  performed 1000 aria t1 t2 /\ BKTrackGetAttr t2 BK_MUTE = Ok (0, Some 0) /\ unit_plays t2 62914560 /\ volumes t2 l /\ lv_instr l = Some (10922, 0).
Proof.
  destruct idle_reachable as (R & I & N & D). destruct tune_silent as (M & S0). destruct rising_ok as (sq & ER & EC).
  assert (HF : (8 < 1000)%nat) by (apply Nat.ltb_lt; vm_compute; reflexivity).
  destruct (C120_adsr 1000 _ 1 4 2 16384 3 sq 8 aria R I M S0 ltac:(lia) ltac:(lia) ltac:(lia) ltac:(lia) EC HF) as (t1 & t2 & E1 & P2 & K).
  - unfold other_instrument. rewrite N. exact Logic.I.
  - unfold aria. repeat (apply Forall_cons; [cbn [playable]; first [exact Logic.I|lia]|]). apply Forall_nil.
  - destruct aria_singer as (_ & (A1 & A2 & A3) & _). unfold singer_values in K. rewrite A1, A2, A3 in K. destruct K as (MU & K & _). destruct (K eq_refl) as (U & (l & L & VL & _) & _).
    exists sq, t1, t2, l. split; [exact ER|]. split; [exact E1|]. split; [exact P2|]. split; [exact MU|]. split; [exact U|]. split; [exact VL|]. destruct L as (_ & _ & _ & _ & _ & L & _). rewrite L. reflexivity.
Qed.

(** * C121 *)

(** ** Notes which are not cut off *)

Lemma performed_app fuel es es' : forall t t', performed fuel (es ++ es') t t' <-> exists t1, performed fuel es t t1 /\ performed fuel es' t1 t'.
Proof.
  induction es as [|e es IH]; intros t t'; cbn [app performed].
  - split; [intros P; exists t; auto|intros (t1 & -> & P); exact P].
  - split.
    + intros (t1 & D & P). apply IH in P. destruct P as (t2 & P2 & P3). exists t2. split; [exists t1; auto|exact P3].
    + intros (t2 & (t1 & D & P2) & P3). exists t1. split; [exact D|]. apply IH. exists t2. auto.
Qed.
Lemma performed_det fuel es : forall t t1 t2, performed fuel es t t1 -> performed fuel es t t2 -> t1 = t2.
Proof.
  induction es as [|e es IH]; intros t t1 t2; cbn [performed]; [congruence|]. intros (u1 & D1 & P1) (u2 & D2 & P2). assert (u1 = u2) as -> by (destruct e; cbn [did] in *; congruence). exact (IH _ _ _ P1 P2).
Qed.

Definition not_cut (e : event) : Prop := e <> Cut.
(** A silent singer whose notes have never been cut off has come down to zero. *)
Definition comes_down (p : singer) : Prop := match sg_env p with Att _ _ => sg_breath p <> Mum | Rel w _ => sg_breath p = Mum -> w = 0 | Mut w => w = 0 end.
Lemma never_cut a de su re es : 0 < a -> Forall not_cut es -> let p := singer_after a de su re es in sg_breath p = Mum -> env_level a de su re (sg_env p) = 0.
Proof.
  intros HA HC. cbv zeta. unfold singer_after. intros B. assert (R0 : comes_down (rested a de su re)).
  { unfold comes_down. cbn [rested sg_env env_level]. cbv zeta. change (Z.of_nat 0) with 0. replace (0 <? a) with true by lia. reflexivity. }
  assert (C : comes_down (fold_left (singer_step a de su re) es (rested a de su re))).
  { revert R0. generalize (rested a de su re). clear B. induction HC as [|e es NC _ IH]; intros p HP; [exact HP|]. cbn [fold_left]. apply IH. clear IH. unfold comes_down in *. destruct e as [v| | |]; cbn [singer_step]; cbv zeta.
    - destruct (sg_breath p) eqn:EB; cbn [sg_breath sg_env]; [discriminate| |discriminate]. destruct (sg_env p); [discriminate|discriminate|exact HP].
    - destruct (sg_env p) as [w n|w n|w] eqn:EE.
      + destruct (re =? 0); cbn [sg_breath sg_env]; [reflexivity|]. destruct (sg_breath p); [congruence|discriminate|discriminate].
      + rewrite EE. exact HP.
      + destruct (re =? 0); cbn [sg_breath sg_env]; [reflexivity|]. intros _. exact HP.
    - destruct (NC eq_refl).
    - cbn [sg_breath sg_env]. destruct (sg_env p) as [w n|w n|w]; [exact HP| |exact HP]. destruct (Z.of_nat (S n) <? re); [exact HP|reflexivity]. }
  unfold comes_down in C. destruct (sg_env _) as [w n|w n|w]; [congruence| |exact C]. rewrite (C B). cbn [env_level]. rewrite Z.opp_0. destruct re; cbn; lia.
Qed.
Lemma singer_app a de su re es es' : singer_after a de su re (es ++ es') = fold_left (singer_step a de su re) es' (singer_after a de su re es).
Proof. apply fold_left_app. Qed.
Lemma singer_ticks a de su re v w n : forall m, fold_left (singer_step a de su re) (repeat Tick n) (mk_singer v Sings (Att w m)) = mk_singer v Sings (Att w (m + n)).
Proof. induction n as [|n IH]; intros m; cbn [repeat fold_left]; [rewrite Nat.add_0_r; reflexivity|]. cbn [singer_step sg_env sg_note sg_breath]. rewrite IH, Nat.add_succ_r. reflexivity. Qed.
Lemma last_ticks es v n : (1 <= n)%nat -> last (es ++ Key v :: repeat Tick n) Cut = Tick.
Proof. intros HN. replace (es ++ Key v :: repeat Tick n) with ((es ++ Key v :: repeat Tick (n - 1)) ++ [Tick]); [apply last_last|]. rewrite <- app_assoc. cbn [app]. rewrite <- (repeat_cons (n - 1) Tick). change (Tick :: repeat Tick (n - 1)) with (repeat Tick (S (n - 1))). replace (S (n - 1)) with n by lia. reflexivity. Qed.

(** A note which is set in the silence after notes which have been released and have ended fades
    in from zero.  Missing are notes which have been cut off by muting, see below. *)
Theorem C121_fade_in_partial fuel t id a de su re sq size es v n : reachable fuel t -> idle t -> BKTrackGetAttr t BK_MUTE <> Ok (0, Some 0) -> un_sustain (tr_unit t) = false ->
  0 <= a < 2 ^ 31 -> 0 <= de < 2 ^ 31 -> 0 <= su <= 32767 -> 0 <= re < 2 ^ 31 -> BKInstrumentSetEnvelopeADSR a de su re = Ok (Some sq, 0) -> (8 < fuel)%nat ->
  other_instrument t id -> Forall playable es -> Forall not_cut es -> sg_breath (singer_after a de su re es) = Mum -> 0 <= v -> 1 <= Z.of_nat n < a ->
  exists t1 t2 t3, BKTrackSetPtr fuel t BK_INSTRUMENT (TInstr id [Some sq; None; None; None]) size = Ok (t1, 0) /\ performed fuel es t1 t2 /\ performed fuel (Key v :: repeat Tick n) t2 t3 /\
    BKTrackGetAttr t2 BK_MUTE <> Ok (0, Some 0) /\ BKTrackGetAttr t3 BK_MUTE = Ok (0, Some 0) /\
    heard_with t v (fun j => if (j =? 0)%nat then Z.of_nat n * (32767 * 32768 / a) / 32768 else 0) t3.
Proof.
  intros HR HI HM SU Ha Hd Hs Hr EC HF NS PE NC MU HV HN.
  destruct (C120_adsr fuel t id a de su re sq size es HR HI HM SU Ha Hd Hs Hr EC HF NS PE) as (t1 & t2 & E1 & P2 & K2). rewrite MU in K2. destruct K2 as (M2 & _).
  destruct (C120_adsr fuel t id a de su re sq size (es ++ Key v :: repeat Tick n) HR HI HM SU Ha Hd Hs Hr EC HF NS) as (t1' & t3 & E1' & P3 & K3).
  { apply Forall_app. split; [exact PE|]. constructor; [exact HV|]. apply Forall_forall. intros e I. apply repeat_spec in I. subst e. exact I. }
  assert (t1' = t1) as -> by congruence. destruct (proj1 (performed_app fuel es _ t1 t3) P3) as (t2' & P2' & P3'). assert (t2' = t2) as -> by exact (performed_det _ _ _ _ _ P2' P2).
  rewrite singer_app in K3. cbn [fold_left] in K3.
  assert (ST : singer_step a de su re (singer_after a de su re es) (Key v) = mk_singer v Sings (Att 0 0)) by (cbn [singer_step]; cbv zeta; rewrite MU, (never_cut a de su re es ltac:(lia) NC MU); reflexivity).
  rewrite ST, singer_ticks in K3. cbn [sg_breath sg_note Nat.add] in K3. destruct K3 as (M3 & K3 & _). specialize (K3 (last_ticks es v n ltac:(lia))).
  exists t1, t2, t3. split; [exact E1|]. split; [exact P2|]. split; [exact P3'|]. split; [exact M2|]. split; [exact M3|]. unfold singer_values, singer_value in K3. cbn [sg_env env_level] in K3. cbv zeta in K3.
  replace (Z.of_nat n <? a) with true in K3 by lia. unfold FULL in K3. rewrite Z.sub_0_r, Z.quot_div_nonneg, Z.add_0_l in K3 by lia. exact K3.
Qed.
(** A note which is released and one which is released in the silence behind it. *)
Example fade_in_melody : let es := [Key 50331648; Tick; Up; Tick; Tick; Tick; Up; Tick] in Forall playable es /\ Forall not_cut es /\ sg_breath (singer_after 4 2 16384 3 es) = Mum.
Proof. cbv zeta. split; [|split; [|vm_compute; reflexivity]]; repeat (apply Forall_cons; [first [cbn [playable]; lia|exact Logic.I|unfold not_cut; discriminate]|]); apply Forall_nil. Qed.

(** Not every note does: one which is set in the silence after a muted note begins at the level at
    which that was cut off.  Here the envelope goes up in four ticks, but after the first one it
    is at 20479 instead of 8191. *)
Definition cut_off : list event := [Key 50331648; Tick; Tick; Tick; Tick; Tick; Tick; Cut; Tick].
Theorem C121_fade_in_refuted : exists fuel t id a de su re sq size es v t1 t2 t3 l, reachable fuel t /\ idle t /\ BKInstrumentSetEnvelopeADSR a de su re = Ok (Some sq, 0) /\ 1 < a /\
  BKTrackSetPtr fuel t BK_INSTRUMENT (TInstr id [Some sq; None; None; None]) size = Ok (t1, 0) /\ performed fuel es t1 t2 /\ BKTrackGetAttr t2 BK_MUTE <> Ok (0, Some 0) /\
  performed fuel [Key v; Tick] t2 t3 /\ BKTrackGetAttr t3 BK_MUTE = Ok (0, Some 0) /\ unit_plays t3 v /\ volumes t3 l /\ lv_instr l = Some (20479, 0) /\ 1 * (32767 * 32768 / a) / 32768 = 8191.
Proof.
  destruct idle_reachable as (R & I & N & D). destruct tune_silent as (M & S0). destruct rising_ok as (sq & ER & EC).
  assert (HF : (8 < 1000)%nat) by (apply Nat.ltb_lt; vm_compute; reflexivity).
  assert (NS : other_instrument (track_after BK_SQUARE silent_ops) 1) by (unfold other_instrument; rewrite N; exact Logic.I).
  assert (P0 : Forall playable (cut_off ++ [Key 50331648; Tick])) by (unfold cut_off; cbn [app]; repeat (apply Forall_cons; [cbn [playable]; first [exact Logic.I|lia]|]); apply Forall_nil).
  destruct (C120_adsr 1000 _ 1 4 2 16384 3 sq 8 cut_off R I M S0 ltac:(lia) ltac:(lia) ltac:(lia) ltac:(lia) EC HF NS (proj1 (proj1 (Forall_app _ _ _) P0))) as (t1 & t2 & E1 & P2 & K2).
  destruct (C120_adsr 1000 _ 1 4 2 16384 3 sq 8 (cut_off ++ [Key 50331648; Tick]) R I M S0 ltac:(lia) ltac:(lia) ltac:(lia) ltac:(lia) EC HF NS P0) as (t1' & t3 & E1' & P3 & K3).
  assert (t1' = t1) as -> by congruence. destruct (proj1 (performed_app _ cut_off _ t1 t3) P3) as (t2' & P2' & P3'). assert (t2' = t2) as -> by exact (performed_det _ _ _ _ _ P2' P2).
  assert (A1 : sg_breath (singer_after 4 2 16384 3 cut_off) = Mum) by (vm_compute; reflexivity). rewrite A1 in K2. destruct K2 as (M2 & _).
  assert (A2 : let p := singer_after 4 2 16384 3 (cut_off ++ [Key 50331648; Tick]) in sg_note p = 50331648 /\ sg_breath p = Sings /\ singer_value 4 2 16384 3 p = 20479) by (vm_compute; repeat split; reflexivity).
  destruct A2 as (A2 & A3 & A4). unfold singer_values in K3. rewrite A2, A3, A4 in K3. destruct K3 as (M3 & K3 & _). destruct (K3 eq_refl) as (U & (l & L & VL & _) & _).
  exists 1000%nat, (track_after BK_SQUARE silent_ops), 1, 4, 2, 16384, 3, sq, 8, cut_off, 50331648, t1, t2, t3, l. split; [exact R|]. split; [exact I|]. split; [exact EC|]. split; [lia|]. split; [exact E1|]. split; [exact P2|].
  split; [exact M2|]. split; [exact P3'|]. split; [exact M3|]. split; [exact U|]. split; [exact VL|]. destruct L as (_ & _ & _ & _ & _ & L & _). rewrite L. split; reflexivity.
Qed.

Print Assumptions C120_adsr.
Print Assumptions C121_fade_in_partial.
Print Assumptions C121_fade_in_refuted.
