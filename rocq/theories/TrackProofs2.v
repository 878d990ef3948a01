(** Tracks: notes, arpeggios and instruments keep the invariant. *)
From Verif Require Import CInt CIntFacts DataModel UnitModel UnitSpec UnitProofs UnitProofs2 UnitInv UnitInv2 UnitInv3 UnitProofs5 UnitCount
  InterpModel InterpProofs IntervalProofs SlideIn ToneModel PropertiesTone SequenceModel SequenceSpec SequenceProofs InstrumentProofs InstrBounds
  TrackModel TrackSpec TrackInv TrackProofs.
Ltac Zify.zify_post_hook ::= idtac.

Lemma note_sum fuel t : track_ok fuel t -> exists n, track_note t = Ok n /\ -1359331327 <= n <= 1996488704.
Proof.
  intros H. unfold track_note. destruct (get_note _ (tk_note _ _ H)) as (n0 & E0 & B0). rewrite E0. cbn [bind].
  destruct (tk_arpeggio _ _ H) as (_ & _ & _ & BA & _). pose proof (tk_pitch _ _ H) as BP. unfold MAX_NOTE, MAX_PITCH in *.
  assert (K : exists n1, (if has t FArp then chk32 (n0 + ar_delta (tr_arpeggio t)) else Ok n0) = Ok n1 /\ -100663296 <= n1 <= 469762048).
  { destruct (has t FArp); [rewrite chk32_ok by lia|]; eexists; (split; [reflexivity|lia]). }
  destruct K as (n1 & -> & B1). cbn [bind].
  destruct (get_vibrato _ (tk_vibrato _ _ H)) as (w & Ew & Bw).
  assert (K : exists n2, (if has t FVibrato then let* v := BKIntervalStateGetValue (tr_vibrato t) in chk32 (n1 + v) else Ok n1) = Ok n2 /\ -1174405120 <= n2 <= 1811939328).
  { destruct (has t FVibrato); [rewrite Ew; cbn [bind]; rewrite chk32_ok by lia|]; eexists; (split; [reflexivity|lia]). }
  destruct K as (n2 & -> & B2). cbn [bind].
  destruct (get_slot fuel t 2 H ltac:(lia)) as (x & Ex & Bx & _).
  assert (K : exists n3, (if has t FInstr then let* v := slot_value t BK_SEQUENCE_PITCH in chk32 (n2 + v) else Ok n2) = Ok n3 /\ -1308622848 <= n3 <= 1946157056).
  { unfold BK_SEQUENCE_PITCH. destruct (has t FInstr); [rewrite Ex; cbn [bind]; rewrite chk32_ok by lia|]; eexists; (split; [reflexivity|lia]). }
  destruct K as (n3 & -> & B3). cbn [bind]. rewrite chk32_ok by lia. eexists. split; [reflexivity|]. lia.
Qed.

Lemma s32_range_any x : -2147483648 <= s32 x <= 2147483647.
Proof. pose proof (s32_range x). lia. Qed.

(** The period of a note, as it is passed to the unit. *)
Lemma period_value p c : 1984000 <= p <= 3077760000 -> p <> 2147483648 -> 1 <= c <= 64 ->
  u32 (s32 p) = p /\ s32 (p / c) <> -2147483648 /\ (2 <= c -> s32 (p / c) = p / c).
Proof.
  intros Bp Np Bc. assert (E : u32 (s32 p) = p) by (apply u32_s32; lia). split; [exact E|].
  destruct (Z.eq_dec c 1) as [-> |N].
  - rewrite Z.div_1_r. split; [|lia]. intros C. apply Np. rewrite <- E, C. reflexivity.
  - assert (Q : 0 <= p / c < 2147483648) by (split; [apply Z.div_pos; lia|apply Z.div_lt_upper_bound; nia]).
    rewrite s32_id by lia. split; [lia|auto].
Qed.

Lemma note_ok fuel t : track_ok fuel t -> exists u, BKTrackUpdateUnitNote t = Ok (t_unit t u) /\ track_ok fuel (t_unit t u).
Proof.
  intros H. assert (Self : t_unit t (tr_unit t) = t) by (destruct t; reflexivity).
  unfold BKTrackUpdateUnitNote. destruct (un_ctx (tr_unit t)); [|exists (tr_unit t); rewrite Self; auto].
  destruct (note_sum fuel t H) as (n & -> & Bn). cbn [bind].
  destruct (negb _).
  - destruct (tone_bounds n (tr_rate t)) as (p & Ep & Bp). rewrite Ep. cbn [bind]. pose proof (tone_not_min _ _ _ Ep) as Np.
    destruct (tk_unit _ _ H) as ((W & _) & C). unfold counted in C. pose proof (wf_count _ W) as WC.
    assert (Bc : 1 <= BKMin (ph_count (un_phase (tr_unit t))) BK_WAVE_MAX_LENGTH <= 64) by (unfold BKMin, BK_WAVE_MAX_LENGTH; destruct (_ <? _); lia).
    set (c := BKMin _ _) in *. clearbody c. destruct (Z.eqb_spec c 0) as [Z0|_]; [lia|].
    destruct (period_value p c Bp Np Bc) as (E1 & E2 & _). rewrite E1.
    destruct (unit_attr_ok fuel t BK_PERIOD (s32 (p / c)) H (s32_range_any _)) as (u & r & _ & E & K); [intros _; exact E2|discriminate|].
    exists u. auto.
  - pose proof (tk_samplePitch _ _ H) as BS. unfold MAX_PITCH in BS. rewrite chk32_ok by lia. cbn [bind].
    destruct (C10_log2_total (n + tr_samplePitch t)) as (p & -> & Bp). cbn [bind].
    destruct (unit_attr_ok fuel t BK_SAMPLE_PERIOD (s32 p) H (s32_range_any _)) as (u & r & _ & E & K); [intros _; rewrite s32_id; lia|discriminate|].
    exists u. auto.
Qed.

Lemma dutycycle_ok fuel t : track_ok fuel t -> exists u, BKTrackUpdateUnitDutyCycle t = Ok (t_unit t u) /\ track_ok fuel (t_unit t u).
Proof.
  intros H. unfold BKTrackUpdateUnitDutyCycle. pose proof (tk_duty _ _ H) as BD.
  destruct (get_slot fuel t 3 H ltac:(lia)) as (x & Ex & Bx & _).
  assert (K : exists d, (if has t FInstr then let* v := slot_value t BK_SEQUENCE_DUTY_CYCLE in Ok (if negb (v =? 0) then v else tr_duty t) else Ok (tr_duty t)) = Ok d /\ Z.abs d < 134217728).
  { unfold BK_SEQUENCE_DUTY_CYCLE. destruct (has t FInstr); [|eexists; split; [reflexivity|lia]]. rewrite Ex. cbn [bind].
    eexists. split; [reflexivity|]. destruct (negb _); lia. }
  destruct K as (d & -> & Bd). cbn [bind].
  destruct (plain_attr_ok fuel t BK_DUTY_CYCLE d H ltac:(lia) ltac:(discriminate) ltac:(discriminate) ltac:(discriminate)) as (u & r & _ & E & K).
  exists u. auto.
Qed.

(** Only the unit and the marks of what it has to be told change. *)
Definition marks (t t' : track) : Prop :=
  exists u a b c, t' = t_unit (t_flags t (fset (fset (fset (tr_flags t) FVolume a) FNote b) FDuty c)) u.
Lemma marks_refl t : marks t t.
Proof.
  exists (tr_unit t), (has t FVolume), (has t FNote), (has t FDuty). destruct t as [? ? ? f]. destruct f. reflexivity.
Qed.
Lemma marks_unit t t' u : marks t t' -> marks t (t_unit t' u).
Proof. intros (v & a & b & c & ->). exists u, a, b, c. reflexivity. Qed.
Lemma marks_put t t' k b : marks t t' -> k = FVolume \/ k = FNote \/ k = FDuty -> marks t (put t' k b).
Proof.
  intros (v & a1 & a2 & a3 & ->) [-> |[-> | ->]]; [exists v, b, a2, a3|exists v, a1, b, a3|exists v, a1, a2, b]; reflexivity.
Qed.

Lemma update_ok fuel t : track_ok fuel t -> exists t', BKTrackUpdateUnit t = Ok t' /\ track_ok fuel t' /\ marks t t'.
Proof.
  intros H. unfold BKTrackUpdateUnit.
  assert (K1 : exists t1, (if has t FVolume then let* t := BKTrackUpdateUnitVolume t in Ok (put t FVolume false) else Ok t) = Ok t1 /\ track_ok fuel t1 /\ marks t t1).
  { destruct (has t FVolume); [|exists t; split; [reflexivity|]; split; [exact H|apply marks_refl]].
    destruct (volume_ok fuel t H) as (u & -> & K). cbn [bind]. eexists. split; [reflexivity|]. split; [apply ok_put; [exact K|discriminate]|].
    apply marks_put; [|auto]. apply marks_unit, marks_refl. }
  destruct K1 as (t1 & -> & H1 & M1). cbn [bind].
  assert (K2 : exists t2, (if has t1 FNote then let* t := BKTrackUpdateUnitNote t1 in Ok (put t FNote false) else Ok t1) = Ok t2 /\ track_ok fuel t2 /\ marks t t2).
  { destruct (has t1 FNote); [|exists t1; split; [reflexivity|]; split; [exact H1|exact M1]].
    destruct (note_ok fuel t1 H1) as (u & -> & K). cbn [bind]. eexists. split; [reflexivity|]. split; [apply ok_put; [exact K|discriminate]|].
    apply marks_put; [|auto]. apply marks_unit, M1. }
  destruct K2 as (t2 & -> & H2 & M2). cbn [bind].
  destruct (has t2 FDuty); [|exists t2; split; [reflexivity|]; split; [exact H2|exact M2]].
  destruct (dutycycle_ok fuel t2 H2) as (u & -> & K). cbn [bind]. eexists. split; [reflexivity|]. split; [apply ok_put; [exact K|discriminate]|].
  apply marks_put; [|auto]. apply marks_unit, M2.
Qed.

Lemma ignore_ok fuel t : track_ok fuel t -> track_ok fuel (BKTrackUpdateIgnoreVolume t).
Proof. intros H. unfold BKTrackUpdateIgnoreVolume. apply ok_put; [apply ok_put; [exact H|discriminate]|discriminate]. Qed.

(** ** Arpeggio *)

Lemma copy_ints_ok n : forall dst src, (n <= length dst)%nat -> (n <= length src)%nat ->
  copy_ints n dst src = Ok (firstn n src ++ skipn n dst).
Proof.
  induction n as [|n IH]; intros dst src H1 H2; [reflexivity|].
  destruct dst as [|d dst]; [cbn in H1; lia|]. destruct src as [|s src]; [cbn in H2; lia|].
  cbn [copy_ints]. rewrite (IH dst src) by (cbn in *; lia). reflexivity.
Qed.

Lemma notes_ok fuel t l n : track_ok fuel t -> 0 <= n <= 8 -> n <= Z.of_nat (length l) -> Forall (fun v => Z.abs v <= MAX_NOTE) (firstn (Z.to_nat n) l) ->
  exists t', BKTrackArpeggioSetNotes t l n = Ok t' /\ track_ok fuel t' /\
    t' = put (put (t_arpeggio t (mk_arp (if ar_offset (tr_arpeggio t) >=? n then 0 else ar_offset (tr_arpeggio t)) (ar_delta (tr_arpeggio t)) n
                                        (firstn (Z.to_nat n) l ++ skipn (Z.to_nat n) (ar_notes (tr_arpeggio t))))) FArp (n >? 0)) FNote true.
Proof.
  intros H Hn Hl F. unfold BKTrackArpeggioSetNotes. cbv zeta. destruct (tk_arpeggio _ _ H) as (A1 & A2 & A3 & A4 & A5).
  destruct (Z.ltb_spec n 0) as [L|_]; [lia|]. rewrite copy_ints_ok by lia. cbn [bind].
  eexists. split; [reflexivity|]. split; [|reflexivity].
  apply ok_put; [|discriminate]. apply ok_put; [|discriminate]. apply ok_arpeggio; [exact H|].
  unfold arp_ok. cbn [ar_notes ar_count ar_offset ar_delta].
  split; [rewrite app_length, firstn_length, skipn_length; lia|]. split; [exact Hn|].
  split; [destruct (Z.geb_spec (ar_offset (tr_arpeggio t)) n); lia|]. split; [exact A4|].
  apply Forall_app. split; [exact F|]. rewrite <- (firstn_skipn (Z.to_nat n)) in A5. apply Forall_app in A5. apply A5.
Qed.

Lemma arptick_ok fuel t : track_ok fuel t -> exists t', BKTrackArpeggioTick t = Ok t' /\ track_ok fuel t' /\
  t' = put (t_arpeggio t (mk_arp (if ar_offset (tr_arpeggio t) + 1 >=? ar_count (tr_arpeggio t) then 0 else ar_offset (tr_arpeggio t) + 1)
                                 (nth (Z.to_nat (ar_offset (tr_arpeggio t))) (ar_notes (tr_arpeggio t)) 0) (ar_count (tr_arpeggio t)) (ar_notes (tr_arpeggio t)))) FNote true.
Proof.
  intros H. unfold BKTrackArpeggioTick. cbv zeta. destruct (tk_arpeggio _ _ H) as (A1 & A2 & A3 & A4 & A5).
  rewrite (aget_nth _ _ 0) by lia. cbn [bind]. rewrite chk32_ok by lia. cbn [bind]. eexists. split; [reflexivity|]. split; [|reflexivity].
  apply ok_put; [|discriminate]. apply ok_arpeggio; [exact H|]. unfold arp_ok. cbn [ar_notes ar_count ar_offset ar_delta].
  split; [exact A1|]. split; [exact A2|]. split; [destruct (Z.geb_spec (ar_offset (tr_arpeggio t) + 1) (ar_count (tr_arpeggio t))); lia|].
  split; [|exact A5]. rewrite Forall_forall in A5. apply A5. apply nth_In. lia.
Qed.

Lemma divtick_ok d : div_ok d -> exists d' b, BKDividerStateTick d = Ok (d', b) /\ div_ok d' /\
  b = (ds_counter d =? 0) /\ d' = mk_dstate (ds_divider d) (if ds_counter d =? 0 then ds_divider d - 1 else ds_counter d - 1).
Proof.
  intros (H1 & H2). unfold BKDividerStateTick. destruct (Z.eqb_spec (ds_counter d) 0) as [E|E].
  - rewrite chk32_ok by lia. cbn [bind]. eexists _, _. split; [reflexivity|]. split; [split; cbn; lia|]. auto.
  - rewrite chk32_ok by lia. cbn [bind]. eexists _, _. split; [reflexivity|]. split; [split; cbn; lia|]. auto.
Qed.

(** ** Instrument *)

Lemma flags_ok fuel t all : track_ok fuel t -> track_ok fuel (BKTrackInstrumentUpdateFlags t all).
Proof.
  intros H. unfold BKTrackInstrumentUpdateFlags. cbv zeta.
  assert (K : forall t' k (b : bool), track_ok fuel t' -> k <> FInstr -> track_ok fuel (if b then put t' k true else t')) by (intros t' k b ? ?; destruct b; [apply ok_put|]; assumption).
  destruct all.
  - apply ok_put; [|discriminate]. apply ok_put; [|discriminate]. apply ok_put; [exact H|discriminate].
  - apply K; [|discriminate]. apply K; [|discriminate]. apply K; [|discriminate]. apply K; [exact H|discriminate].
Qed.

(** What a release looks at does not change. *)
Definition held (u u' : bkunit) : Prop :=
  un_sustain u' = un_sustain u /\ un_jump u' = un_jump u /\ un_waveform u' = un_waveform u /\
  sm_sustainEnd (un_sample u') = sm_sustainEnd (un_sample u) /\ sm_length (un_sample u') = sm_length (un_sample u) /\
  un_ctx u' = un_ctx u.
Lemma held_refl u : held u u. Proof. repeat split. Qed.
Lemma held_trans u v w : held u v -> held v w -> held u w.
Proof. unfold held. intros (A1 & A2 & A3 & A4 & A5 & A6) (B1 & B2 & B3 & B4 & B5 & B6). repeat split; congruence. Qed.
Lemma held_release u v : held u v -> release_ok u -> release_ok v.
Proof. intros (A1 & A2 & A3 & A4 & A5 & _) R B1 B2. rewrite A3, A4, A5. apply R; congruence. Qed.
Lemma mute_held u v u' r : BKUnitSetAttr u BK_MUTE v = Ok (u', r) -> held u u' /\ un_mute u' = (if v =? 0 then 0 else 1).
Proof.
  intros E. change (BKUnitSetAttr u BK_MUTE v) with (@Ok (bkunit * Z) (set_mute u (if v =? 0 then 0 else 1), 0)) in E.
  match type of E with Ok (?x, 0) = _ => assert (Ex : u' = x) by congruence end. rewrite Ex. split; [repeat split|]. reflexivity.
Qed.

Lemma release_held u v u' r : BKUnitSetAttr u BK_FLAG_RELEASE v = Ok (u', r) -> held u u' /\ un_mute u' = un_mute u.
Proof.
  intros E. unfold BKUnitSetAttr in E. cbv zeta in E.
  change (BK_FLAG_RELEASE =? BK_DUTY_CYCLE) with false in E. change (BK_FLAG_RELEASE =? BK_WAVEFORM) with false in E.
  change (BK_FLAG_RELEASE =? BK_PHASE) with false in E. change (BK_FLAG_RELEASE =? BK_PHASE_WRAP) with false in E.
  change (BK_FLAG_RELEASE =? BK_PERIOD) with false in E. change (BK_FLAG_RELEASE =? BK_VOLUME) with false in E.
  change ((BK_VOLUME_0 <=? BK_FLAG_RELEASE) && (BK_FLAG_RELEASE <=? BK_VOLUME_7)) with false in E.
  change (BK_FLAG_RELEASE =? BK_MUTE) with false in E. change (BK_FLAG_RELEASE =? BK_SAMPLE_REPEAT) with false in E.
  change (BK_FLAG_RELEASE =? BK_SAMPLE_PERIOD) with false in E. change (BK_FLAG_RELEASE =? BK_SAMPLE_IMMED_RELEASE) with false in E.
  change (BK_FLAG_RELEASE =? BK_FLAG_RELEASE) with true in E. cbv iota in E.
  assert (K : forall x, Ok (x, 0) = Ok (u', r) -> held u x -> un_mute x = un_mute u -> held u u' /\ un_mute u' = un_mute u).
  { intros x Ex Hx Mx. assert (u' = x) as -> by congruence. auto. }
  destruct (un_sustain u) eqn:S0; [|apply (K _ E); [apply held_refl|reflexivity]].
  destruct (_ && _); [|apply (K _ E); [unfold held; cbn; auto 10|reflexivity]].
  destruct (_ >? _); [apply (K _ E); [unfold held; cbn; auto 10|reflexivity]|].
  destruct (chk32 _); cbn [bind] in E; [|discriminate]. apply (K _ E); [unfold held; cbn; auto 10|reflexivity].
Qed.
