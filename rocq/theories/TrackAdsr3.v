(** The state of an instrument with an envelope follows the envelope. *)
From Verif Require Import CInt CIntFacts DataModel UnitModel UnitSpec UnitProofs UnitProofs2 UnitProofs5 UnitInv UnitInv2 UnitInv3 UnitCount
  InterpModel InterpProofs SlideIn ToneModel PropertiesTone SequenceModel SequenceSpec SequenceProofs InstrumentProofs InstrBounds
  TrackModel TrackSpec TrackInv TrackProofs TrackProofs2 TrackProofs3 TrackProofs4 TrackProofs5 TrackProofs6 TrackVolume TrackPlay TrackTicks TrackNote TrackAttrs
  TrackInstr TrackInstr2 TrackInstr3 TrackInstr4 TrackInstr5 TrackMelody TrackMelody2 TrackMelody3 TrackMelody4 TrackAdsr TrackAdsr2.
Ltac Zify.zify_post_hook ::= idtac.
Local Notation ticked := SequenceSpec.ticked.
Local Notation played := SequenceSpec.played.

Section State.
Context (a de su re : Z).
Hypothesis Ha : 0 <= a < 2 ^ 31.
Hypothesis Hd : 0 <= de < 2 ^ 31.
Hypothesis Hr : 0 <= re < 2 ^ 31.
Hypothesis Hs : 0 <= su <= 32767.
Context (sq : sequence).
Hypothesis EC : BKInstrumentSetEnvelopeADSR a de su re = Ok (Some sq, 0).
Context (fuel : nat).
Hypothesis HF : (8 < fuel)%nat.
Let sqs : list (option sequence) := [Some sq; None; None; None].
Let instr := BKInstrumentUpdateNumSequences sqs.
Let level := env_level a de su re.

Definition holds (e : envelope) (s : istate) : Prop :=
  start_in re e /\ exists st rest, is_states s = st :: rest /\ length rest = 3%nat /\ st_shiftedValue st = level e /\ st_value st = Z.shiftr (level e) 15 /\
  match e with
  | Att w n => is_phase s = 1 /\ is_numActive s = 1 /\ doneb st = false /\ exists r, attacked a de su re sq w n st r
  | Rel w n => is_phase s = 2 /\ is_numActive s = 1 /\ doneb st = false /\ exists r, released a de su re sq w n st r
  | Mut w => is_phase s = 0 /\ is_numActive s <= 0 /\ st_steps st = 0 /\ st_phase st <> 1 /\ (st_offset st = 4 \/ st_offset st = BK_INT_MAX)
  end.

Lemma holds_level e s : holds e s -> 0 <= level e <= FULL.
Proof. intros (S0 & _). exact (level_in a de su re Hs e S0). Qed.

(** Muted where the envelope is. *)
Definition floored (w : Z) : Z := w / 32768 * 32768.
Lemma floored_in w : env_in w -> env_in (floored w).
Proof. unfold env_in, floored, FULL. intros H. pose proof (Z.mul_div_le w 32768 ltac:(lia)). pose proof (Z.div_pos w 32768 ltac:(lia) ltac:(lia)). lia. Qed.
Lemma floored_again w : floored (floored w) = floored w.
Proof. unfold floored. rewrite Z.div_mul by lia. reflexivity. Qed.

Lemma states_four s : Forall2 (slot_ok fuel) sqs (is_states s) -> length (is_states s) = 4%nat.
Proof. intros F. pose proof (Forall2_length _ _ _ F) as L. cbn in L. lia. Qed.

(** A state whose slot has a value. *)
Definition valued (w : Z) (s : istate) : Prop := env_in w /\ exists st rest, is_states s = st :: rest /\ length rest = 3%nat /\ st_shiftedValue st = w /\ st_value st = Z.shiftr w 15.
Lemma holds_valued e s : holds e s -> valued (level e) s.
Proof. intros (S0 & st & rest & E1 & E2 & E3 & E4 & _). split; [exact (level_in a de su re Hs e S0)|]. exists st, rest. auto. Qed.

Lemma phased_four p st rest : length rest = 3%nat -> map (phase_slot fuel p) (combine sqs (st :: rest)) = phase_slot fuel p (Some sq, st) :: rest.
Proof. destruct rest as [|x [|y [|z [|]]]]; cbn; intros L; try lia. reflexivity. Qed.
Lemma unfinished_four st rest : length rest = 3%nat -> unfinished sqs (st :: rest) = if doneb st then 0 else 1.
Proof. destruct rest as [|x [|y [|z [|]]]]; cbn [length]; intros L; try lia. unfold sqs. cbn [unfinished]. destruct (doneb st); reflexivity. Qed.

Lemma state_attack w s : valued w s ->
  exists s', BKInstrumentStateSetPhase fuel instr s 1 = Ok s' /\ is_muted s' = is_muted s /\ holds (Att w 0) s'.
Proof.
  intros (B & st & rest & E1 & L & E3 & E4). destruct (adsr_attack a de su re Ha Hd Hr Hs sq EC fuel st w HF B E3 E4) as (st' & r & EP & A).
  destruct (attacked_value a de su re Ha Hd Hr Hs sq EC w 0 st' r A) as (V1 & V2 & DB & NR).
  exists (mk_istate 1 1 (st' :: rest) (is_muted s)). split.
  - unfold BKInstrumentStateSetPhase. change (1 =? BK_SEQUENCE_PHASE_RELEASE) with false. rewrite andb_false_r. change ((0 <=? 1) && (1 <=? 2)) with true. cbv iota. rewrite E1.
    change (in_numSequences instr) with 1. change (in_sequences instr) with sqs. unfold sqs. cbn [set_phase_loop]. change (0 <? 1) with true. cbv iota. rewrite EP. cbn [bind].
    change (r =? BK_SEQUENCE_RETURN_FINISH) with (r =? 4). replace (r =? 4) with false by lia. destruct rest as [|x [|y [|z [|]]]]; cbn [length] in L; try lia. reflexivity.
  - split; [reflexivity|]. split; [exact B|]. exists st', rest. cbn [is_states is_phase is_numActive]. repeat (split; [first [reflexivity|assumption]|]). exists r. exact A.
Qed.
Lemma state_release e s : holds e s -> Forall2 (slot_ok fuel) sqs (is_states s) -> match e with Rel _ _ => False | _ => True end ->
  exists s', BKInstrumentStateSetPhase fuel instr s 2 = Ok s' /\
    if re =? 0 then is_phase s' = 0 /\ holds (Mut 0) s' /\ (is_muted s' = is_muted s <-> is_phase s = 0) else is_muted s' = is_muted s /\ holds (Rel (level e) 0) s'.
Proof.
  intros HO F2 NR. destruct (holds_valued _ _ HO) as (B & st & rest & E1 & L & E3 & E4).
  assert (NP : is_phase s <> 2) by (destruct HO as (_ & ? & ? & _ & _ & _ & _ & K); destruct e; [destruct K as (-> & _); discriminate|contradiction|destruct K as (-> & _); discriminate]).
  destruct (phase_set fuel sqs s 2 F2 ltac:(lia) ltac:(lia)) as (E & _). rewrite E1, (phased_four 2 st rest L) in E.
  destruct (adsr_release a de su re Ha Hd Hr Hs sq EC fuel st (level e) HF B E3 E4) as (st' & r & EP & A).
  assert (EQ : phase_slot fuel 2 (Some sq, st) = st') by (unfold phase_slot; cbn [fst snd]; rewrite EP; reflexivity). rewrite EQ, (unfinished_four st' rest L) in E.
  pose proof (released_value a de su re Ha Hd Hr Hs sq EC (level e) 0 st' r A) as RV. change (Z.of_nat 0) with 0 in RV.
  assert (SP : st_phase st' = 2).
  { destruct A as [(i & k & _ & (p & _ & _ & _ & EQ') & _)|(i & _ & (_ & _ & _ & _ & PH & _) & _)]; [cbv zeta in EQ'; rewrite EQ'; reflexivity|exact PH]. }
  destruct (Z.ltb_spec 0 re) as [R0|R0].
  - replace (re =? 0) with false by lia. destruct RV as (V1 & V2 & DB & _). rewrite DB in E. cbn [Z.eqb Pos.eqb orb andb] in E.
    eexists. split; [exact E|]. split; [cbn [is_muted]; lia|]. split; [split; [exact B|]; change (Z.of_nat 0) with 0; lia|]. exists st', rest. repeat (split; [first [reflexivity|assumption]|]). exists r. exact A.
  - replace (re =? 0) with true by lia. destruct RV as (V1 & V2 & V3 & DB & _). rewrite DB in E. cbn [Z.eqb Pos.eqb orb andb] in E.
    eexists. split; [exact E|]. split; [reflexivity|]. split; [|cbn [is_muted]; destruct (Z.eqb_spec (is_phase s) 0); cbn [negb]; split; intros; lia].
    split; [unfold start_in, env_in, FULL; lia|]. exists st', rest. cbn [is_states is_phase is_numActive]. split; [reflexivity|]. split; [exact L|]. split; [exact V1|]. split; [exact V2|].
    split; [reflexivity|]. split; [lia|]. split; [exact V3|]. split; [lia|]. right. unfold doneb in DB. lia.
Qed.
Lemma state_mute w s : valued w s -> Forall2 (slot_ok fuel) sqs (is_states s) ->
  exists s', BKInstrumentStateSetPhase fuel instr s 0 = Ok s' /\ holds (Mut (floored w)) s' /\ Forall2 (slot_ok fuel) sqs (is_states s').
Proof.
  intros (B & st & rest & E1 & L & E3 & E4) F2. destruct (phase_set fuel sqs s 0 F2 ltac:(lia) ltac:(lia)) as (E & F2'). rewrite E1, (phased_four 0 st rest L) in E, F2'.
  pose proof (adsr_mute a de su re Ha Hd Hr Hs sq EC fuel st w B E4) as EP. set (st' := mk_sstate 0 0 0 4 (w / 32768) (w / 32768 * 32768) 0) in *.
  assert (EQ : phase_slot fuel 0 (Some sq, st) = st') by (unfold phase_slot; cbn [fst snd]; rewrite EP; reflexivity). rewrite EQ in E, F2'. cbn [Z.eqb orb andb] in E.
  eexists. split; [exact E|]. split; [|exact F2']. split; [exact (floored_in _ B)|]. exists st', rest. cbn [is_states is_phase is_numActive st' st_shiftedValue st_value st_steps st_phase st_offset].
  split; [reflexivity|]. split; [exact L|]. split; [reflexivity|]. split; [|repeat split; try lia].
  change (level (Mut (floored w))) with (floored w). rewrite Z.shiftr_div_pow2 by lia. change (2 ^ 15) with 32768. unfold floored. rewrite Z.div_mul by lia. reflexivity.
Qed.

(** With the callback. *)
Lemma to_attack w s s' : valued w s -> phased_to fuel instr s 1 s' -> holds (Att w 0) s'.
Proof.
  intros V (s1 & E & K). destruct (state_attack w s V) as (s1' & E' & M & HO). assert (s1' = s1) as -> by congruence. destruct K as [(_ & ->)|(C & _)]; [exact HO|contradiction].
Qed.
Lemma to_mute w s s' : valued w s -> Forall2 (slot_ok fuel) sqs (is_states s) -> phased_to fuel instr s 0 s' -> holds (Mut (floored w)) s'.
Proof.
  intros V F2 (s1 & E & K). destruct (state_mute w s V F2) as (s1' & E' & HO & F2'). assert (s1' = s1) as -> by congruence. destruct K as [(_ & ->)|(_ & E2)]; [exact HO|].
  destruct (state_mute (floored w) s1 (holds_valued _ _ HO) F2') as (s2 & E2' & HO2 & _). assert (s2 = s') as -> by congruence. rewrite floored_again in HO2. exact HO2.
Qed.
Lemma to_release e s s' : holds e s -> Forall2 (slot_ok fuel) sqs (is_states s) -> phased_to fuel instr s 2 s' ->
  match e with Rel _ _ => s' = s | _ => if re =? 0 then holds (Mut 0) s' else holds (Rel (level e) 0) s' end.
Proof.
  intros HO F2 (s1 & E & K).
  assert (NR : match e with Rel _ _ => False | _ => True end -> if re =? 0 then holds (Mut 0) s' else holds (Rel (level e) 0) s').
  { intros NR. destruct (state_release e s HO F2 NR) as (s1' & E' & R). assert (s1' = s1) as -> by congruence. destruct (re =? 0).
    - destruct R as (P & HO1 & M). destruct K as [(_ & ->)|(_ & E2)]; [exact HO1|].
      assert (F3 : Forall2 (slot_ok fuel) sqs (is_states s1)).
      { assert (NP : is_phase s <> 2) by (destruct HO as (_ & ? & ? & _ & _ & _ & _ & KK); destruct e; [destruct KK as (-> & _); discriminate|contradiction|destruct KK as (-> & _); discriminate]).
        destruct (phase_set fuel sqs s 2 F2 ltac:(lia) ltac:(lia)) as (EE & F3). fold instr in EE. rewrite EE in E. match type of E with Ok ?x = _ => assert (s1 = x) as -> by congruence end. exact F3. }
      destruct (state_mute _ _ (holds_valued _ _ HO1) F3) as (s2 & E2' & HO2 & _). assert (s2 = s') as -> by congruence. exact HO2.
    - destruct R as (M & HO1). destruct K as [(_ & ->)|(C & _)]; [exact HO1|contradiction]. }
  destruct e as [w n|w n|w]; [apply NR; exact I| |apply NR; exact I].
  destruct HO as (_ & ? & ? & _ & _ & _ & _ & (P & _)). unfold BKInstrumentStateSetPhase in E. rewrite P in E. change ((2 =? BK_SEQUENCE_PHASE_RELEASE) && (2 =? BK_SEQUENCE_PHASE_RELEASE)) with true in E. cbv iota in E.
  assert (s1 = s) as -> by congruence. destruct K as [(_ & ->)|(C & _)]; [reflexivity|contradiction].
Qed.

(** A tick. *)
Definition env_tick (e : envelope) : envelope :=
  match e with
  | Att w n => Att w (S n)
  | Rel w n => if Z.of_nat (S n) <? re then Rel w (S n) else Mut 0
  | Mut w => Mut w
  end.
Lemma to_tick e id t t' : holds e (tr_istate t) -> track_ok fuel t -> tr_instr t = Some (id, instr) -> has t FInstr = true -> any_effect t = false -> has t FArp = false -> BKTrackTick fuel t = Ok t' ->
  Forall2 (slot_ok fuel) sqs (is_states (tr_istate t)) -> holds (env_tick e) (tr_istate t').
Proof.
  intros HO H EI HI HE HA E F2. destruct (tick_istate fuel id sq t t' H EI HI HE HA E) as (st & st' & r & rest & lv & ES & HL & EP & K). cbv zeta in K. set (s := tr_istate t) in *. set (s' := tr_istate t') in *. clearbody s'.
  destruct HO as (S0 & st0 & rest0 & E1 & L & V1 & V2 & KH). assert (st0 = st /\ rest0 = rest) as (-> & ->) by (split; congruence). clear E1.
  destruct e as [w n|w n|w].
  - destruct KH as (P & N & DB & r0 & A). destruct (adsr_attacked a de su re Ha Hd Hr Hs sq EC fuel w n st r0 lv HF HL A) as (st1 & r1 & EP' & A'). assert (st1 = st' /\ r1 = r) as (-> & ->) by (split; congruence).
    destruct (attacked_value a de su re Ha Hd Hr Hs sq EC w (S n) st' r A') as (X1 & X2 & DB' & NR). replace (r =? 4) with false in K by lia. rewrite K.
    split; [exact S0|]. exists st', rest. cbn [is_states is_phase is_numActive]. repeat (split; [first [reflexivity|assumption]|]). exists r. exact A'.
  - destruct KH as (P & N & DB & r0 & A). destruct (adsr_released a de su re Ha Hd Hr Hs sq EC fuel w n st r0 lv HF HL A) as (st1 & r1 & EP' & A'). assert (st1 = st' /\ r1 = r) as (-> & ->) by (split; congruence).
    pose proof (released_value a de su re Ha Hd Hr Hs sq EC w (S n) st' r A') as X. cbn [env_tick]. cbn [start_in] in S0. destruct (Z.ltb_spec (Z.of_nat (S n)) re) as [R|R].
    + destruct X as (X1 & X2 & DB' & NR). replace (r =? 4) with false in K by lia. rewrite K.
      split; [split; [apply S0|exact R]|]. exists st', rest. cbn [is_states is_phase is_numActive]. repeat (split; [first [reflexivity|assumption]|]). exists r. exact A'.
    + destruct X as (X1 & X2 & X3 & DB' & RR). rewrite (RR ltac:(lia)) in K. rewrite N in K. cbn [Z.eqb Pos.eqb Z.sub Z.add Z.opp Pos.sub] in K. change (1 - 1 =? 0) with true in K. cbv iota in K.
      refine (to_mute 0 _ s' _ _ K).
      * split; [unfold env_in, FULL; lia|]. exists st', rest. cbn [is_states]. split; [reflexivity|]. split; [exact L|]. split; [exact X1|]. rewrite X2. reflexivity.
      * cbn [is_states]. rewrite ES in F2. unfold sqs in F2. inversion F2 as [|? ? ? ? SO FR E3 E4]. subst. constructor; [|exact FR]. destruct SO as (SO1 & SO2).
        destruct (slot_tick fuel sq st lv SO1 SO2 HL) as (st2 & r2 & EE & SO3 & _). assert (st2 = st') as -> by congruence. split; assumption.
  - destruct KH as (P & N & S1 & S2 & SO). destruct (adsr_muted a de su re Ha Hd Hr Hs sq EC fuel st lv ltac:(lia) HL S1 S2 SO) as (st1 & r1 & EP' & Y1 & Y2 & Y3 & Y4 & Y5). assert (st1 = st' /\ r1 = r) as (-> & ->) by (split; congruence).
    assert (KK : is_states s' = st' :: rest /\ is_phase s' = 0 /\ is_numActive s' <= 0).
    { destruct (r =? 4); [replace (is_numActive s - 1 =? 0) with false in K by lia|]; rewrite K; cbn [is_states is_phase is_numActive]; (split; [reflexivity|]); (split; [exact P|lia]). }
    destruct KK as (K1 & K2 & K3). split; [exact S0|]. exists st', rest. cbn [env_tick]. split; [exact K1|]. split; [exact L|]. split; [congruence|]. split; [congruence|]. auto 6.
Qed.

(** Whether the instrument plays. *)
Lemma holds_playing e s : holds e s -> match e with Mut _ => True | _ => playing sqs s end.
Proof.
  intros (_ & st & rest & ES & L & _ & _ & K). destruct e as [w n|w n|w]; [| |exact I]; destruct K as (P & N & DB & _); unfold playing; rewrite P, N, ES, (unfinished_four st rest L), DB; auto.
Qed.
Lemma holds_ticked e s lv : holds e s -> 0 <= lv -> match e with Mut _ => True | _ =>
  (0 <? unfinished sqs (is_states s)) && (unfinished sqs (ticked fuel sqs lv (is_states s)) =? 0) = match env_tick e with Mut _ => true | _ => false end end.
Proof.
  intros (S0 & st & rest & ES & L & _ & _ & K) HL. destruct e as [w n|w n|w]; [| |exact I]; destruct K as (P & N & DB & r & A); rewrite ES, (unfinished_four st rest L), DB.
  - destruct (adsr_attacked a de su re Ha Hd Hr Hs sq EC fuel w n st r lv HF HL A) as (st' & r1 & EP & A'). destruct (attacked_value a de su re Ha Hd Hr Hs sq EC w (S n) st' r1 A') as (X1 & X2 & DB' & NR).
    assert (ET : ticked fuel sqs lv (st :: rest) = st' :: rest).
    { destruct rest as [|x [|y [|z [|]]]]; cbn [length] in L; try lia. unfold SequenceSpec.ticked, sqs. cbn [combine map]. unfold tick_slot at 1. cbn [fst snd]. rewrite EP. reflexivity. }
    rewrite ET, (unfinished_four st' rest L), DB'. reflexivity.
  - destruct (adsr_released a de su re Ha Hd Hr Hs sq EC fuel w n st r lv HF HL A) as (st' & r1 & EP & A'). pose proof (released_value a de su re Ha Hd Hr Hs sq EC w (S n) st' r1 A') as X.
    assert (ET : ticked fuel sqs lv (st :: rest) = st' :: rest).
    { destruct rest as [|x [|y [|z [|]]]]; cbn [length] in L; try lia. unfold SequenceSpec.ticked, sqs. cbn [combine map]. unfold tick_slot at 1. cbn [fst snd]. rewrite EP. reflexivity. }
    rewrite ET, (unfinished_four st' rest L). cbn [env_tick]. destruct (Z.of_nat (S n) <? re); [destruct X as (_ & _ & -> & _)|destruct X as (_ & _ & _ & -> & _)]; reflexivity.
Qed.
Lemma holds_released w n s : holds (Att w n) s -> unfinished sqs (phased fuel sqs 2 (is_states s)) = if re =? 0 then 0 else 1.
Proof.
  intros HO. destruct (holds_valued _ _ HO) as (B & st & rest & E1 & L & E3 & E4). unfold phased. rewrite E1, (phased_four 2 st rest L).
  destruct (adsr_release a de su re Ha Hd Hr Hs sq EC fuel st _ HF B E3 E4) as (st' & r & EP & A).
  assert (EQ : phase_slot fuel 2 (Some sq, st) = st') by (unfold phase_slot; cbn [fst snd]; rewrite EP; reflexivity). rewrite EQ, (unfinished_four st' rest L).
  pose proof (released_value a de su re Ha Hd Hr Hs sq EC _ 0 st' r A) as RV. change (Z.of_nat 0) with 0 in RV. destruct (Z.ltb_spec 0 re) as [R0|R0].
  - replace (re =? 0) with false by lia. destruct RV as (_ & _ & -> & _). reflexivity.
  - replace (re =? 0) with true by lia. destruct RV as (_ & _ & _ & -> & _). reflexivity.
Qed.

(** The instrument is set on a track without note. *)
Lemma defaults_valued s s' : BKInstrumentStateSetDefaultValues sqs s = Ok s' -> length (is_states s) = 4%nat -> valued 0 s'.
Proof.
  intros E L. unfold BKInstrumentStateSetDefaultValues in E. apply bind_inv in E. destruct E as (sts & E & E'). match type of E' with Ok ?x = _ => assert (s' = x) as -> by congruence end. clear E'.
  destruct (is_states s) as [|st [|x [|y [|z [|]]]]]; cbn [length] in L; try lia. unfold sqs, sequenceDefaultValue in E. cbn [set_defaults] in E. unfold BKSequenceStateSetValue in E.
  destruct (adsr_facts a de su re Ha Hd Hr Hs sq EC) as ([W V TT FS HB] & FC & LN). rewrite V in E. cbn [bind] in E.
  apply bind_inv in E. destruct E as (st1 & E1 & E). apply bind_inv in E1. destruct E1 as (st2 & E2 & E1). match type of E with Ok ?x = _ => assert (sts = x) as -> by congruence end. clear E.
  assert (st1 = st_set_value st2 0) as -> by congruence. clear E1. unfold BKSequenceFuncEnvelopeSetValue, shl in E2. rewrite Z.mul_0_l in E2. change (chk32 0) with (Ok 0) in E2. cbn [bind] in E2. cbv zeta in E2.
  assert (S2 : st_shiftedValue st2 = 0).
  { destruct (negb _).
    - apply bind_inv in E2. destruct E2 as (diff & _ & E2). apply bind_inv in E2. destruct E2 as (dl & _ & E2). match type of E2 with Ok ?x = _ => assert (st2 = x) as -> by congruence end. reflexivity.
    - match type of E2 with Ok ?x = _ => assert (st2 = x) as -> by congruence end. reflexivity. }
  split; [unfold env_in, FULL; lia|]. eexists _, _. cbn [is_states]. split; [reflexivity|]. split; [reflexivity|]. split; [exact S2|reflexivity].
Qed.
Lemma to_set t id t1 : track_ok fuel t -> sequences_ok fuel sqs -> same_instr (Some (id, instr)) (tr_instr t) = false -> tr_curNote t = -1 -> BKTrackSetInstrument fuel t (Some (id, instr)) = Ok t1 ->
  holds (Mut (floored (level (Att 0 0)))) (tr_istate t1).
Proof.
  intros H HQ NS HC E. unfold BKTrackSetInstrument in E. rewrite NS in E. cbn [negb] in E. cbv iota in E.
  destruct (set_instrument_on fuel t id sqs H HQ) as (s & ES & F & B). fold instr in ES. rewrite ES in E. cbn [bind] in E. cbv zeta in E.
  assert (HA : holds (Att 0 0) s).
  { unfold state_set_instrument in ES. cbv zeta in ES. apply bind_inv in ES. destruct ES as (s0 & E0 & ES).
    assert (s0 = s) as -> by (apply (f_equal (fun x => match x with Ok t => tr_istate t | Err _ => s end)) in ES; exact ES). clear ES. change (in_sequences instr) with sqs in E0.
    unfold BKInstrumentStateSetInstrument in E0. apply bind_inv in E0. destruct E0 as (s1 & E1 & E0). apply bind_inv in E0. destruct E0 as (s2 & E2 & E0).
    assert (L1 : length (is_states s1) = 4%nat).
    { destruct (tk_instr _ _ H) as (HS & old & F0 & EI).
      assert (EO : match tr_instr t with Some (_, i) => in_sequences i | None => repeat None BK_MAX_SEQUENCES end = old) by (destruct (tr_instr t) as [[? i']|]; subst; reflexivity).
      rewrite EO in E1. pose proof (Forall3_length _ _ _ _ F0) as (L3 & L4). unfold BKInstrumentStateSetDefaultValues in E1. apply bind_inv in E1. destruct E1 as (sts1 & E1 & E3').
      destruct (defaults_ok fuel slot_ranges old (is_states (tr_istate t)) sequenceDefaultValue slot_defaults (sok_good _ _ _ _ F0) L4 (pre_junk _ _ _ _ (sok_pre_all _ _ _ _ F0))) as (s1' & E1' & F1).
      rewrite E1' in E1. assert (sts1 = s1') as -> by congruence. assert (is_states s1 = s1') as -> by (match type of E3' with Ok ?x = _ => assert (s1 = x) as -> by congruence end; reflexivity).
      rewrite (proj2 (Forall3_length _ _ _ _ F1)). reflexivity. }
    destruct (state_attack 0 s2 (defaults_valued s1 s2 E2 L1)) as (s3 & E3 & _ & HO). change (BKInstrumentStateSetPhase fuel instr s2 1 = Ok s) in E0. assert (s3 = s) as -> by congruence. exact HO. }
  set (t2 := t_instrDiv (put _ FInstr true) _) in E. apply bind_inv in E. destruct E as (t4 & E & ET). apply bind_inv in E. destruct E as (t3 & E3 & E4).
  apply init_istate in E3; [|reflexivity]. subst t3. change (tr_curNote t2) with (tr_curNote t) in E4. rewrite HC in E4. cbn [Z.eqb Pos.eqb] in E4.
  unfold BKTrackInstrumentMute in E4. apply bind_inv in E4. destruct E4 as (t5 & E5 & E4).
  assert (IS : tr_istate t1 = tr_istate t5).
  { assert (t1 = BKTrackInstrumentUpdateFlags t4 true) as -> by congruence. assert (t4 = BKTrackInstrumentUpdateFlags t5 false) as -> by congruence.
    change (tr_istate (BKTrackInstrumentUpdateFlags (BKTrackInstrumentUpdateFlags t5 false) true)) with (tr_istate (BKTrackInstrumentUpdateFlags t5 false)). destruct (flags_marks t5 false) as (? & ? & ? & ? & ->). reflexivity. }
  rewrite IS. apply (to_mute (level (Att 0 0)) s); [exact (holds_valued _ _ HA)|exact (sok_slots _ _ _ _ F)|].
  exact (phase_istate fuel id instr t2 0 t5 eq_refl eq_refl E5).
Qed.
End State.
