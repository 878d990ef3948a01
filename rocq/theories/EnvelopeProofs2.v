(** Attack and release of envelopes; termination and safety of all histories. *)
From Verif Require Import CIntFacts SequenceModel SequenceSpec SequenceProofs EnvelopeProofs.
Ltac Zify.zify_post_hook ::= idtac.

(** ** Visited phases *)

Lemma attack_none phases so sl i : (so + sl <= length phases)%nat ->
  phase_at phases (attack_index so sl) i = None -> so = length phases /\ sl = O /\ (length phases <= i)%nat.
Proof.
  intros HL E. apply nth_error_None in E.
  assert (ES : so = length phases). { destruct (Nat.eq_dec so (length phases)) as [|N]; [assumption|]. pose proof (attack_index_bound so sl _ i HL ltac:(lia)). lia. }
  assert (sl = O) by lia. split; [exact ES|]. split; [assumption|]. unfold attack_index in E. destruct (Nat.ltb_spec i (so + sl)); lia.
Qed.

Lemma attack_none_stays phases so sl i : (so + sl <= length phases)%nat ->
  phase_at phases (attack_index so sl) i = None -> phase_at phases (attack_index so sl) (S i) = None.
Proof.
  intros HL E. destruct (attack_none _ _ _ _ HL E) as (ES & -> & HI). apply nth_error_None. unfold attack_index.
  destruct (Nat.ltb_spec (S i) (so + 0)); lia.
Qed.

Lemma attack_visits so sl q i : (so <= q < so + sl)%nat -> exists J, (i <= J <= i + 2 * (so + sl))%nat /\ attack_index so sl J = q.
Proof.
  intros HQ. assert (M : Nat.max 1 sl = sl) by lia.
  destruct (Nat.lt_ge_cases i (so + sl)) as [H|H].
  - destruct (Nat.le_gt_cases i q) as [L|L].
    + exists q. split; [lia|]. unfold attack_index. destruct (Nat.ltb_spec q (so + sl)); lia.
    + exists (q + sl)%nat. split; [lia|]. unfold attack_index. destruct (Nat.ltb_spec (q + sl) (so + sl)); [lia|]. rewrite M.
      enough (E : ((q + sl - so) mod sl = q - so)%nat) by lia. symmetry. apply Nat.mod_unique with (q := 1%nat); lia.
  - set (r := ((i - so) mod sl)%nat). pose proof (Nat.mod_upper_bound (i - so) sl ltac:(lia)) as B. fold r in B.
    pose proof (Nat.div_mod (i - so) sl ltac:(lia)) as DM. fold r in DM. set (k := ((i - so) / sl)%nat) in *.
    destruct (Nat.le_gt_cases r (q - so)) as [L|L].
    + exists (i + (q - so - r))%nat. split; [lia|]. unfold attack_index. destruct (Nat.ltb_spec (i + (q - so - r)) (so + sl)); [nia|]. rewrite M.
      enough (E : ((i + (q - so - r) - so) mod sl = q - so)%nat) by lia. symmetry. apply Nat.mod_unique with (q := k); [lia|]. nia.
    + exists (i + (q - so + sl - r))%nat. split; [lia|]. unfold attack_index. destruct (Nat.ltb_spec (i + (q - so + sl - r)) (so + sl)); [nia|]. rewrite M.
      enough (E : ((i + (q - so + sl - r) - so) mod sl = q - so)%nat) by lia. symmetry. apply Nat.mod_unique with (q := S k); [lia|]. nia.
Qed.

Lemma attack_stops phases so sl : (so + sl <= length phases)%nat -> takes_time phases so sl ->
  forall i, exists J, (i <= J <= i + 2 * length phases)%nat /\
    (phase_at phases (attack_index so sl) J = None \/ steps_at phases (attack_index so sl) J <> 0).
Proof.
  intros HL [ES|(q & p & HQ & EQ & HS)] i.
  - exists (Nat.max i (length phases)). split; [lia|]. left. apply nth_error_None. unfold attack_index.
    destruct (Nat.ltb_spec (Nat.max i (length phases)) (so + sl)); lia.
  - destruct (attack_visits so sl q i HQ) as (J & HJ & EJ). exists J. split; [lia|]. right. unfold steps_at, phase_at. rewrite EJ, EQ. exact HS.
Qed.

Lemma linear_stops phases o : forall i, exists J, (i <= J <= i + 2 * length phases)%nat /\
    (phase_at phases (fun i => (o + i)%nat) J = None \/ steps_at phases (fun i => (o + i)%nat) J <> 0).
Proof. intros i. exists (i + length phases)%nat. split; [lia|]. left. apply nth_error_None. lia. Qed.
Lemma linear_none_stays phases o i : phase_at phases (fun i => (o + i)%nat) i = None -> phase_at phases (fun i => (o + i)%nat) (S i) = None.
Proof. unfold phase_at. rewrite !nth_error_None. lia. Qed.

(** ** Attack and release *)

Section Play.
Context (phases : list sphase) (sq : sequence) (so sl : nat).
Hypothesis W : seq_wf sq (length phases) so sl.
Hypothesis V : sq_values sq = VEnvelope phases.
Hypothesis TT : takes_time phases so sl.
Let fs := sq_fracShift sq.
Hypothesis FS : 0 <= fs <= 30.
Hypothesis HB : forall p, In p phases -> Z.abs (ph_value p) * 2 ^ fs <= 2 ^ 30 - 2 ^ fs /\ 0 <= ph_steps p < 2 ^ 31.

Definition at_attack := at_time phases sq 1 (attack_index so sl).
Definition at_release := at_time phases sq 2 (release_index so sl).

Lemma norm_attack o : norm so sl 1 o = wrap (Z.of_nat so) (Z.of_nat (so + sl)) o.
Proof. reflexivity. Qed.

Lemma attack_phase st fuel : consistent sq st -> (2 * length phases < fuel)%nat ->
  exists st' r, BKSequenceStateSetPhase fuel (Some sq) st 1 = Ok (st', r) /\ at_attack (st_shiftedValue st) 0 st' r /\ r <> 0.
Proof.
  intros C HF. pose proof W as (W1 & W2 & W3 & W4 & W5). unfold BKSequenceStateSetPhase. rewrite V. unfold BKSequenceFuncEnvelopeSetPhase.
  change (1 =? BK_SEQUENCE_PHASE_MUTE) with false. change (1 =? BK_SEQUENCE_PHASE_ATTACK) with true. cbv iota zeta.
  destruct (env_begin phases sq so sl W FS HB 1 (attack_index so sl) (2 * length phases)) with (st := st) (fuel := fuel) (o := 0) as (st' & r & E & A & N).
  - intros i _. rewrite norm_attack. symmetry. apply attack_index_wrap.
  - apply attack_stops; assumption.
  - exact C.
  - exact HF.
  - lia.
  - rewrite norm_attack. symmetry. apply attack_index_0_wrap.
  - change BK_SEQUENCE_PHASE_ATTACK with 1. rewrite E. cbn [bind]. unfold BK_SEQUENCE_RETURN_NONE. replace (r =? 0) with false by lia. cbn [andb]. eexists _, _. split; [reflexivity|]. split; [exact A|exact N].
Qed.

Lemma release_phase st fuel : consistent sq st -> (2 * length phases < fuel)%nat ->
  exists st' r, BKSequenceStateSetPhase fuel (Some sq) st 2 = Ok (st', r) /\ at_release (st_shiftedValue st) 0 st' r /\ r <> 0.
Proof.
  intros C HF. pose proof W as (W1 & W2 & W3 & W4 & W5). unfold BKSequenceStateSetPhase. rewrite V. unfold BKSequenceFuncEnvelopeSetPhase.
  change (2 =? BK_SEQUENCE_PHASE_MUTE) with false. change (2 =? BK_SEQUENCE_PHASE_ATTACK) with false. change (2 =? BK_SEQUENCE_PHASE_RELEASE) with true. cbv iota zeta.
  rewrite (env_sustain_end phases sq so sl W). cbn [bind].
  destruct (env_begin phases sq so sl W FS HB 2 (release_index so sl) (2 * length phases)) with (st := st) (fuel := fuel) (o := Z.of_nat (so + sl)) as (st' & r & E & A & N).
  - intros i _. unfold norm, release_index. cbn [Z.eqb Pos.eqb andb]. lia.
  - apply linear_stops.
  - exact C.
  - exact HF.
  - lia.
  - unfold norm, release_index. cbn [Z.eqb Pos.eqb andb]. lia.
  - change BK_SEQUENCE_PHASE_RELEASE with 2. rewrite E. cbn [bind]. unfold BK_SEQUENCE_RETURN_NONE. replace (r =? 0) with false by lia. cbn [andb]. eexists _, _. split; [reflexivity|]. split; [exact A|exact N].
Qed.

Lemma attack_ticks w levels t st r fuel : at_attack w t st r -> (forall l, In l levels -> 0 <= l) -> (2 * length phases < fuel)%nat ->
  exists st' outs, srun fuel sq st (map SStep levels) = Ok (st', outs) /\ at_attack w (t + Z.of_nat (length levels)) st' (last (map snd outs) r).
Proof.
  intros A HL HF. pose proof W as (W1 & W2 & W3 & W4 & W5).
  apply (env_run phases sq so sl W V FS HB 1 (attack_index so sl) (2 * length phases)); try assumption.
  - intros i _. rewrite norm_attack. symmetry. apply attack_index_wrap.
  - apply attack_stops; assumption.
Qed.
Lemma release_ticks w levels t st r fuel : at_release w t st r -> (forall l, In l levels -> 0 <= l) -> (2 * length phases < fuel)%nat ->
  exists st' outs, srun fuel sq st (map SStep levels) = Ok (st', outs) /\ at_release w (t + Z.of_nat (length levels)) st' (last (map snd outs) r).
Proof.
  intros A HL HF. apply (env_run phases sq so sl W V FS HB 2 (release_index so sl) (2 * length phases)); try assumption.
  - intros i _. unfold norm, release_index. cbn [Z.eqb Pos.eqb andb]. lia.
  - apply linear_stops.
Qed.

Lemma at_time_consistent phv idx w t st r : Z.abs w <= 2 ^ 30 - 2 ^ fs -> at_time phases sq phv idx w t st r -> consistent sq st.
Proof.
  intros Hw A. pose proof (Z.pow_pos_nonneg 2 fs ltac:(lia) ltac:(lia)) as PF.
  assert (SB : forall i, (forall m, (m < i)%nat -> phase_at phases idx m <> None) -> Z.abs (sh phases sq idx w i) <= 2 ^ 30 - 2 ^ fs).
  { intros [|i] H; [exact Hw|]. destruct (phase_at phases idx i) as [p|] eqn:E; [apply (sh_bound phases sq HB idx w i p E)|destruct (H i ltac:(lia) E)]. }
  destruct A as [(i & k & -> & (p & EP & HK & HS & EQ) & HR & HA)|(i & HT & (F1 & F2 & F3 & F4 & F5 & F6 & F7) & HR)].
  - cbv zeta in EQ. fold fs in EQ. subst st. unfold consistent. fold fs. cbn [st_value st_shiftedValue].
    split; [reflexivity|].
    pose proof (sh_bound phases sq HB idx w i p EP) as B.
    cbn [sh] in B.
    rewrite EP in B.
    fold fs in B, HS.
    pose proof (quot_between (ph_value p * 2 ^ fs - sh phases sq idx w i) (ph_steps p) k ltac:(lia) ltac:(lia)) as Q.
    revert Q B HS. generalize (k * Z.quot (ph_value p * 2 ^ fs - sh phases sq idx w i) (ph_steps p)) (ph_value p * 2 ^ fs) (sh phases sq idx w i) (2 ^ 30 - 2 ^ fs). clear. intros. lia.
  - unfold consistent. fold fs. fold fs in F4. rewrite F4, F7. split; [reflexivity|apply SB; exact F2].
Qed.

(** ** Every history of calls with bounded values is defined *)

Definition steady (st : sstate) : Prop :=
  consistent sq st /\ (st_offset st = BK_INT_MAX \/ 0 <= st_offset st <= Z.of_nat (length phases)) /\
  (st_steps st <> 0 -> Z.abs (st_endValue st) <= 2 ^ 30 - 2 ^ fs) /\ (0 <= st_phase st <= 2) /\
  0 <= st_steps st < 2 ^ 31 /\ (st_steps st <> 0 -> st_offset st = BK_INT_MAX \/ st_offset st < Z.of_nat (length phases)) /\
  Z.abs (st_shiftedValue st + st_steps st * st_delta st) <= 2 ^ 30 - 2 ^ fs.

(** A visiting order for every state without running steps. *)
Lemma order_at phv o : 0 <= o <= Z.of_nat (length phases) -> exists idx,
  (forall i, (idx i < length phases)%nat -> norm so sl phv (Z.of_nat (idx i) + 1) = Z.of_nat (idx (S i))) /\
  (forall i, exists J, (i <= J <= i + 2 * length phases)%nat /\ (phase_at phases idx J = None \/ steps_at phases idx J <> 0)) /\
  norm so sl phv o = Z.of_nat (idx O).
Proof.
  intros HO. pose proof W as (W1 & W2 & W3 & W4 & W5). destruct (Z.eq_dec phv 1) as [->|N].
  - set (i0 := if (Z.to_nat o <? so + sl)%nat then Z.to_nat o else so).
    exists (fun i => attack_index so sl (i0 + i)). split; [|split].
    + intros i _. rewrite norm_attack. replace (i0 + S i)%nat with (S (i0 + i)) by lia. symmetry. apply attack_index_wrap.
    + intros i. destruct (attack_stops phases so sl W4 TT (i0 + i)) as (J & HJ & E). exists (J - i0)%nat. split; [lia|].
      unfold steps_at, phase_at in *. replace (i0 + (J - i0))%nat with J by lia. exact E.
    + rewrite norm_attack, Nat.add_0_r. unfold i0, wrap, attack_index. destruct (Nat.ltb_spec (Z.to_nat o) (so + sl)) as [L|L].
      * replace (o >=? Z.of_nat (so + sl)) with false by lia. destruct (Nat.ltb_spec (Z.to_nat o) (so + sl)); lia.
      * replace (o >=? Z.of_nat (so + sl)) with true by lia. destruct (Nat.ltb_spec so (so + sl)); [reflexivity|].
        rewrite Nat.sub_diag, Nat.mod_0_l by lia. lia.
  - exists (fun i => (Z.to_nat o + i)%nat). unfold norm. replace (phv =? 1) with false by lia. cbn [andb]. split; [intros; lia|]. split; [apply linear_stops|lia].
Qed.

Lemma pow_fs2 : 1 <= 2 ^ fs.
Proof. pose proof (Z.pow_pos_nonneg 2 fs ltac:(lia) ltac:(lia)). lia. Qed.

Lemma value_shl v : Z.abs v <= 2 ^ 30 - 2 ^ fs -> Z.abs (Z.shiftr v fs * 2 ^ fs) <= 2 ^ 30 - 2 ^ fs.
Proof.
  intros H. pose proof pow_fs2. rewrite Z.shiftr_div_pow2 by lia. pose proof (Z.div_mod v (2 ^ fs) ltac:(lia)) as D.
  pose proof (Z.mod_pos_bound v (2 ^ fs) ltac:(lia)) as M.
  assert (E : 2 ^ 30 = 2 ^ fs * 2 ^ (30 - fs)) by (rewrite <- Z.pow_add_r by lia; f_equal; lia).
  set (q := v / 2 ^ fs) in *. set (P := 2 ^ fs) in *. set (Q := 2 ^ (30 - fs)) in *. rewrite E in *. clearbody q P Q.
  assert (- Q < q < Q) by nia. assert (Z.abs q <= Q - 1) by lia. rewrite Z.abs_mul, (Z.abs_eq P) by lia. nia.
Qed.

Lemma running_steady phv idx w i k st : 0 <= phv <= 2 -> running phases sq phv idx w i k st -> steady st.
Proof.
  intros HP (p & EP & HK & HS & EQ). pose proof W as (W1 & W2 & W3 & W4 & W5). cbv zeta in EQ. fold fs in HS, EQ.
  pose proof (sh_bound phases sq HB idx w i p EP) as B. cbn [sh] in B. rewrite EP in B. fold fs in B.
  destruct (HB p (nth_error_In _ _ EP)) as (B1 & B2).
  assert (HI : (idx i < length phases)%nat) by (apply nth_error_Some; unfold phase_at in EP; congruence).
  set (d := Z.quot (ph_value p * 2 ^ fs - sh phases sq idx w i) (ph_steps p)) in *.
  pose proof (quot_between (ph_value p * 2 ^ fs - sh phases sq idx w i) (ph_steps p) k ltac:(lia) ltac:(lia)) as Q1. fold d in Q1.
  pose proof (quot_between (ph_value p * 2 ^ fs - sh phases sq idx w i) (ph_steps p) (ph_steps p) ltac:(lia) ltac:(lia)) as Q2. fold d in Q2.
  clearbody d. subst st. unfold steady, consistent. fold fs. cbn [st_value st_shiftedValue st_offset st_endValue st_phase st_steps st_delta].
  split; [split; [reflexivity|lia]|]. split; [right; lia|]. split; [intros; lia|]. split; [lia|]. split; [lia|]. split; [lia|].
  replace (sh phases sq idx w i + k * d + (ph_steps p - k) * d) with (sh phases sq idx w i + ph_steps p * d) by lia. lia.
Qed.

(** The loop without running steps. *)
Lemma steady_load st r fuel : consistent sq st -> 0 <= st_phase st <= 2 -> st_steps st = 0 -> 0 <= st_offset st <= Z.of_nat (length phases) ->
  (2 * length phases < fuel)%nat -> r = 1 \/ r = 2 ->
  exists st' r', env_loop fuel phases sq (Z.of_nat (so + sl)) st r = Ok (st', r') /\
    steady st' /\ st_phase st' = st_phase st /\ (if st_offset st' =? BK_INT_MAX then r' = 4 else r' = 1 \/ r' = 2).
Proof.
  intros (C1 & C2) HP HS HO HF HR. pose proof W as (W1 & W2 & W3 & W4 & W5).
  destruct (order_at (st_phase st) (st_offset st) HO) as (idx & I1 & ID & IZ).
  destruct (env_load_ok phases sq so sl W FS HB (st_phase st) idx I1 (st_shiftedValue st) (2 * length phases) 0 st r fuel)
    as (j & st' & r' & E & J1 & J2 & J3); try assumption; try reflexivity; try (intros; lia).
  { apply ID. }
  exists st', r'. split; [exact E|]. destruct J3 as [(R & R' & RA)|((F1 & F2 & F3 & F4 & F5 & F6 & F7) & R')].
  - assert (S' := running_steady _ _ _ _ _ _ HP R). split; [exact S'|]. destruct R as (p & EP & HK & HS' & EQ). cbv zeta in EQ.
    assert (HI : (idx j < length phases)%nat) by (apply nth_error_Some; unfold phase_at in EP; congruence).
    subst st'. split; [reflexivity|]. cbn. unfold BK_INT_MAX. replace (Z.of_nat (idx j) =? 2147483647) with false by lia. exact R'.
  - split; [|split; [exact F5|rewrite F3, Z.eqb_refl; exact R']].
    assert (C : consistent sq st').
    { unfold consistent. rewrite F4, F7. split; [reflexivity|]. destruct j as [|j]; [exact C2|].
      destruct (phase_at phases idx j) as [p|] eqn:EP; [apply (sh_bound phases sq HB idx _ j p EP)|destruct (F2 j ltac:(lia) EP)]. }
    unfold steady. split; [exact C|]. rewrite F6. split; [left; exact F3|]. split; [intros; lia|]. split; [lia|]. split; [lia|]. split; [intros; lia|].
    rewrite Z.mul_0_l, Z.add_0_r. apply C.
Qed.

(** One call. Codes: the end is reported exactly when the last offset is reached. *)
Lemma steady_tick st fuel level : steady st -> 0 <= level -> (2 * length phases < fuel)%nat ->
  exists st' r, BKSequenceStateStep fuel (Some sq) st level = Ok (st', r) /\ steady st' /\ st_phase st' = st_phase st /\
    (if st_offset st =? BK_INT_MAX then st' = st /\ r = 0 else if st_offset st' =? BK_INT_MAX then r = 4 else r = 1 \/ r = 2).
Proof.
  intros (C & S1 & S2 & S3 & S4 & S5 & S6) HL HF. pose proof W as (W1 & W2 & W3 & W4 & W5). pose proof pow_fs2 as PF.
  unfold BKSequenceStateStep. rewrite V. unfold BKSequenceFuncEnvelopeStep, BK_SEQUENCE_STEP_MAX. replace (level <? 0) with false by lia.
  destruct (Z.eqb_spec (st_offset st) BK_INT_MAX) as [EO|EO].
  { exists st, 0. split; [reflexivity|]. split; [unfold steady; tauto|auto]. }
  destruct S1 as [S1|S1]; [contradiction|]. rewrite (env_sustain_end phases sq so sl W). cbn [bind].
  destruct (Z.eq_dec (st_steps st) 0) as [Z0|Z0].
  - destruct (steady_load st BK_SEQUENCE_RETURN_STEP fuel C S3 Z0 S1 HF (or_introl eq_refl)) as (st' & r & E & R). exists st', r. tauto.
  - assert (SO : st_offset st < Z.of_nat (length phases)) by (destruct (S5 Z0) as [?|?]; [contradiction|assumption]).
    destruct C as (C1 & C2). fold fs in C1, C2.
    destruct fuel as [|fuel]; [lia|]. cbn [env_loop]. replace (st_steps st =? 0) with false by lia. cbn [negb].
    rewrite chk32_ok by lia. cbn [bind]. destruct (st_steps st - 1 >? 0) eqn:EK.
    + stc. assert (MB : Z.abs (st_shiftedValue st + st_delta st) <= 2 ^ 30 - 2 ^ fs) by nia.
      rewrite chk32_ok by lia. cbn [bind]. eexists _, _. split; [reflexivity|]. stc.
      split; [|split; [reflexivity|]].
      * unfold steady, consistent. fold fs. stc. split; [split; [reflexivity|exact MB]|]. split; [right; exact S1|]. split; [intros; apply S2; exact Z0|].
        split; [exact S3|]. split; [lia|]. split; [intros; right; exact SO|].
        replace (st_shiftedValue st + st_delta st + (st_steps st - 1) * st_delta st) with (st_shiftedValue st + st_steps st * st_delta st) by lia. exact S6.
      * replace (st_offset st =? BK_INT_MAX) with false by lia. left. reflexivity.
    + assert (Z1 : st_steps st - 1 = 0) by lia. rewrite Z1. stc. rewrite chk32_ok by lia. cbn [bind].
      match goal with |- context [env_load phases sq _ ?s _] => set (st1 := s) end.
      match goal with |- exists st' r', ?x = _ /\ _ => assert (EL : x = env_loop (S fuel) phases sq (Z.of_nat (so + sl)) st1 BK_SEQUENCE_RETURN_STEP) by reflexivity end.
      rewrite EL. clear EL. destruct (steady_load st1 BK_SEQUENCE_RETURN_STEP (S fuel)) as (st' & r & E & R).
      * unfold st1, consistent. stc. fold fs. split; [reflexivity|]. apply S2. exact Z0.
      * exact S3.
      * reflexivity.
      * unfold st1. stc. lia.
      * exact HF.
      * left. reflexivity.
      * exists st', r. split; [exact E|]. exact R.
Qed.

Lemma steady_phase st fuel p : steady st -> (2 * length phases < fuel)%nat ->
  exists st' r, BKSequenceStateSetPhase fuel (Some sq) st p = Ok (st', r) /\ steady st' /\
    ((p = 1 \/ p = 2) -> st_phase st' = p /\ if st_offset st' =? BK_INT_MAX then r = 4 else r = 1 \/ r = 2) /\
    (p = 0 -> st_phase st' = 0 /\ st_steps st' = 0 /\ st_offset st' = Z.of_nat (length phases) /\ r = 4) /\
    (p <> 0 /\ p <> 1 /\ p <> 2 -> st' = st).
Proof.
  intros ST HF. pose proof ST as (C & S1 & S2 & S3 & S4 & S5 & S6). pose proof W as (W1 & W2 & W3 & W4 & W5). pose proof pow_fs2 as PF.
  assert (D : p = 0 \/ (p = 1 \/ p = 2) \/ (p <> 0 /\ p <> 1 /\ p <> 2)) by lia.
  unfold BKSequenceStateSetPhase. rewrite V. unfold BKSequenceFuncEnvelopeSetPhase, BK_SEQUENCE_PHASE_MUTE, BK_SEQUENCE_PHASE_ATTACK, BK_SEQUENCE_PHASE_RELEASE.
  destruct D as [->|[D|D]].
  - cbn [Z.eqb]. unfold shl. fold fs. destruct C as (C1 & C2). fold fs in C1, C2. pose proof (value_shl _ C2) as B. rewrite <- C1 in B.
    rewrite chk32_ok by lia. cbn [bind]. stc. rewrite W1. replace (Z.of_nat (length phases) >=? Z.of_nat (length phases)) with true by lia. cbn.
    eexists _, _. split; [reflexivity|]. stc. split; [|split; [lia|split; [auto|lia]]].
    unfold steady, consistent. fold fs. stc. split; [split; [symmetry; apply shiftr_mul; lia|exact B]|]. split; [right; lia|]. split; [intros; lia|]. split; [lia|]. split; [lia|].
    split; [lia|]. lia.
  - assert (HX : exists o, 0 <= o <= Z.of_nat (length phases) /\
       (if p =? 0 then let* sh := shl (st_value st) (sq_fracShift sq) in
          Ok (let '(st0, result) := (mk_sstate 0 0 0 (sq_length sq) (st_value st) sh 0, BK_SEQUENCE_RETURN_NONE) in
              if (result =? BK_SEQUENCE_RETURN_NONE) && (st_offset st0 >=? sq_length sq) then (st_set_offset st0 (sq_length sq), BK_SEQUENCE_RETURN_FINISH) else (st0, result))
        else if p =? 1 then
          let* r := BKSequenceFuncEnvelopeStep fuel phases sq (st_set_phase (st_set_offset (st_set_steps st 0) 0) 1) 0 in
          Ok (let '(st0, result) := r in
              if (result =? BK_SEQUENCE_RETURN_NONE) && (st_offset st0 >=? sq_length sq) then (st_set_offset st0 (sq_length sq), BK_SEQUENCE_RETURN_FINISH) else (st0, result))
        else if p =? 2 then
          let* off := chk32 (sq_sustainOffset sq + sq_sustainLength sq) in
          let* r := BKSequenceFuncEnvelopeStep fuel phases sq (st_set_phase (st_set_offset (st_set_steps st 0) off) 2) 0 in
          Ok (let '(st0, result) := r in
              if (result =? BK_SEQUENCE_RETURN_NONE) && (st_offset st0 >=? sq_length sq) then (st_set_offset st0 (sq_length sq), BK_SEQUENCE_RETURN_FINISH) else (st0, result))
        else Ok (st, BK_INVALID_ATTRIBUTE)) =
       (let* r := BKSequenceFuncEnvelopeStep fuel phases sq (st_set_phase (st_set_offset (st_set_steps st 0) o) p) 0 in
          Ok (let '(st0, result) := r in
              if (result =? BK_SEQUENCE_RETURN_NONE) && (st_offset st0 >=? sq_length sq) then (st_set_offset st0 (sq_length sq), BK_SEQUENCE_RETURN_FINISH) else (st0, result)))).
    { destruct D as [->| ->].
      - exists 0. split; [lia|]. reflexivity.
      - exists (Z.of_nat (so + sl)). split; [lia|]. cbn [Z.eqb Pos.eqb]. rewrite (env_sustain_end phases sq so sl W). reflexivity. }
    destruct HX as (o & HO & EX). cbv zeta. rewrite EX. clear EX.
    unfold BKSequenceFuncEnvelopeStep. change (0 <? BK_SEQUENCE_STEP_MAX) with false. stc. replace (o =? BK_INT_MAX) with false by (unfold BK_INT_MAX; lia).
    rewrite (env_sustain_end phases sq so sl W). cbn [bind].
    match goal with |- context [env_loop fuel phases sq _ ?s _] => set (st1 := s) end.
    destruct (steady_load st1 BK_SEQUENCE_RETURN_STEP fuel) as (st' & r & E & R1 & R2 & R3).
    + exact C.
    + unfold st1. stc. lia.
    + reflexivity.
    + unfold st1. stc. lia.
    + exact HF.
    + left. reflexivity.
    + rewrite E. cbn [bind]. assert (r <> 0) by (destruct (st_offset st' =? BK_INT_MAX); lia).
      unfold BK_SEQUENCE_RETURN_NONE. replace (r =? 0) with false by lia. cbn [andb]. exists st', r. split; [reflexivity|]. split; [exact R1|].
      split; [intros _; split; [exact R2|exact R3]|]. split; intros; lia.
  - replace (p =? 0) with false by lia. replace (p =? 1) with false by lia. replace (p =? 2) with false by lia.
    exists st, BK_INVALID_ATTRIBUTE. split; [reflexivity|]. split; [exact ST|]. split; [lia|]. split; [lia|auto].
Qed.

Lemma steady_value st v : steady st -> Z.abs v * 2 ^ fs <= 2 ^ 30 - 2 ^ fs ->
  exists st', BKSequenceStateSetValue (Some sq) st v = Ok st' /\ steady st' /\ st_value st' = v /\ st_offset st' = st_offset st /\ st_phase st' = st_phase st.
Proof.
  intros (C & S1 & S2 & S3 & S4 & S5 & S6) HV. pose proof pow_fs2 as PF.
  assert (BV : Z.abs (v * 2 ^ fs) <= 2 ^ 30 - 2 ^ fs) by (rewrite Z.abs_mul, (Z.abs_eq (2 ^ fs)) by lia; exact HV).
  unfold BKSequenceStateSetValue. rewrite V. unfold BKSequenceFuncEnvelopeSetValue, shl. fold fs. rewrite chk32_ok by lia. cbn [bind]. stc.
  destruct (Z.eqb_spec (st_steps st) 0) as [Z0|Z0]; cbn [negb bind].
  - eexists. split; [reflexivity|]. split; [|stc; auto]. unfold steady, consistent. fold fs. stc. rewrite Z0.
    split; [split; [symmetry; apply shiftr_mul; lia|exact BV]|]. split; [exact S1|]. split; [intros; lia|]. split; [exact S3|]. split; [lia|]. split; [lia|]. lia.
  - specialize (S2 Z0). rewrite chk32_ok by lia. cbn [bind]. unfold cdiv. replace (st_steps st =? 0) with false by lia.
    pose proof (quot_between (st_endValue st - v * 2 ^ fs) (st_steps st) 1 ltac:(lia) ltac:(lia)) as Q1.
    pose proof (quot_between (st_endValue st - v * 2 ^ fs) (st_steps st) (st_steps st) ltac:(lia) ltac:(lia)) as Q2.
    rewrite chk32_ok by lia. cbn [bind]. eexists. split; [reflexivity|]. split; [|stc; auto]. unfold steady, consistent. fold fs. stc.
    split; [split; [symmetry; apply shiftr_mul; lia|exact BV]|]. split; [exact S1|]. split; [intros; exact S2|]. split; [exact S3|]. split; [lia|]. split; [exact S5|]. lia.
Qed.

Definition bounded_op (o : sop) : Prop := match o with SPhase _ => True | SStep l => 0 <= l | SValue v => Z.abs v * 2 ^ fs <= 2 ^ 30 - 2 ^ fs end.
Lemma steady_step st fuel o : steady st -> bounded_op o -> (2 * length phases < fuel)%nat -> exists st' r, sstep fuel sq st o = Ok (st', r) /\ steady st'.
Proof.
  intros S HO HF. destruct o as [p|l|v]; cbn [sstep bounded_op] in *.
  - destruct (steady_phase st fuel p S HF) as (st' & r & E & S' & _). eauto.
  - destruct (steady_tick st fuel l S HO HF) as (st' & r & E & S' & _). eauto.
  - destruct (steady_value st v S HO) as (st' & E & S' & _). rewrite E. cbn [bind]. eauto.
Qed.
Lemma steady_run fuel ops : (2 * length phases < fuel)%nat -> forall st, steady st -> (forall o, In o ops -> bounded_op o) ->
  exists st' l, srun fuel sq st ops = Ok (st', l) /\ steady st'.
Proof.
  intros HF. induction ops as [|o ops IH]; intros st S HB'; cbn [srun]; [eauto|].
  destruct (steady_step st fuel o S (HB' o (or_introl eq_refl)) HF) as (st1 & r & E & S1). rewrite E. cbn [bind].
  destruct (IH st1 S1 ltac:(intros; apply HB'; right; auto)) as (st2 & l & E2 & S2). rewrite E2. cbn [bind]. eauto.
Qed.
Lemma steady_zero : steady sstate_zero.
Proof.
  pose proof pow_fs2 as PF. assert (E : 2 ^ 30 = 2 ^ fs * 2 ^ (30 - fs)) by (rewrite <- Z.pow_add_r by lia; f_equal; lia).
  pose proof (Z.pow_pos_nonneg 2 (30 - fs) ltac:(lia) ltac:(lia)). assert (0 <= 2 ^ 30 - 2 ^ fs) by nia.
  unfold steady, consistent. fold fs. cbn [st_value st_shiftedValue st_offset st_endValue st_phase st_steps st_delta sstate_zero].
  rewrite Z.shiftr_0_l. repeat split; try lia.
Qed.
End Play.

(** ** Termination of every history, whatever the values *)

Section Total.
Context (phases : list sphase) (sq : sequence) (so sl : nat).
Hypothesis W : seq_wf sq (length phases) so sl.
Hypothesis V : sq_values sq = VEnvelope phases.
Hypothesis TT : takes_time phases so sl.
Hypothesis HB : forall p, In p phases -> 0 <= ph_steps p < 2 ^ 32.

(** Defined, or a signed overflow; no endless loop, no access outside, no division by zero. *)
Definition fine {A} (P : A -> Prop) (r : res A) : Prop := match r with Ok a => P a | Err EOverflow => True | Err _ => False end.
Lemma fine_bind {A B} (P : A -> Prop) (Q : B -> Prop) r f : fine P r -> (forall a, P a -> fine Q (f a)) -> fine Q (bind r f).
Proof. destruct r as [a|e]; cbn; [auto|destruct e; auto]. Qed.
Lemma fine_chk32 z : fine (fun x => x = z) (chk32 z).
Proof. unfold chk32. destruct (in_s32 z); reflexivity. Qed.

Definition tinv (st : sstate) : Prop :=
  st_offset st = BK_INT_MAX \/ (0 <= st_offset st <= Z.of_nat (length phases) /\ (st_steps st <> 0 -> st_offset st < Z.of_nat (length phases))).

Lemma s32_nonzero z : 0 <= z < 2 ^ 32 -> z <> 0 -> s32 z <> 0.
Proof. intros H N. unfold s32. pose proof (Z.div_mod (z + 2147483648) 4294967296 ltac:(lia)). pose proof (Z.mod_pos_bound (z + 2147483648) 4294967296 ltac:(lia)). intros E. nia. Qed.

Definition env_tail (fuel : nat) (st : sstate) (r : Z) : res (sstate * Z) :=
  let* (st, result, stop) := env_load phases sq (Z.of_nat (so + sl)) st r in
  if (stop : bool) then Ok (st, result)
  else if st_steps st =? 0 then env_loop fuel phases sq (Z.of_nat (so + sl)) st result
  else Ok (st, result).

Lemma env_loop_zero fuel st r : st_steps st = 0 -> env_loop (S fuel) phases sq (Z.of_nat (so + sl)) st r = env_tail fuel st r.
Proof. intros H. cbn [env_loop]. rewrite H. reflexivity. Qed.

Lemma total_tail phv idx : (forall i, (idx i < length phases)%nat -> norm so sl phv (Z.of_nat (idx i) + 1) = Z.of_nat (idx (S i))) ->
  forall d st r fuel i,
  (exists J, (i <= J <= i + d)%nat /\ (phase_at phases idx J = None \/ steps_at phases idx J <> 0)) ->
  norm so sl phv (st_offset st) = Z.of_nat (idx i) -> st_phase st = phv ->
  0 <= st_offset st <= Z.of_nat (length phases) -> (d <= fuel)%nat -> r <> 0 ->
  fine (fun p => tinv (fst p) /\ snd p <> 0) (env_tail fuel st r).
Proof.
  pose proof W as (W1 & W2 & W3 & W4 & W5). intros I1.
  induction d as [|d IH]; intros st r fuel i (J & HJ1 & HJ2) HN HP HO HF HR.
  all: unfold env_tail, env_load; rewrite HP; unfold BK_SEQUENCE_PHASE_ATTACK.
  all: match goal with |- context [let '(_, _) := ?c in _] => assert (EC : exists r1, c = (st_set_offset st (Z.of_nat (idx i)), r1) /\ r1 <> 0) end.
  1,3: unfold norm in HN; destruct ((phv =? 1) && (st_offset st >=? Z.of_nat (so + sl))) eqn:EB;
     [exists 2; rewrite W2, HN; split; [reflexivity|lia] | exists r; rewrite <- HN; destruct st; split; [reflexivity|exact HR]].
  all: destruct EC as (r1 & EC & NR); rewrite EC; clear EC; cbn [st_offset st_set_offset]; rewrite W1.
  all: destruct (phase_at phases idx i) as [p|] eqn:EP.
  2,4: (assert (length phases <= idx i)%nat by (apply nth_error_None in EP; exact EP);
     replace (Z.of_nat (idx i) <? Z.of_nat (length phases)) with false by lia; cbn [bind fine fst snd]; split; [left; reflexivity|discriminate]).
  all: assert (HI : (idx i < length phases)%nat) by (apply nth_error_Some; unfold phase_at in EP; congruence).
  all: replace (Z.of_nat (idx i) <? Z.of_nat (length phases)) with true by lia; rewrite (nth_error_aget _ _ _ EP); cbn [bind].
  all: pose proof (HB p (nth_error_In _ _ EP)) as B2.
  all: destruct (Z.eqb_spec (ph_steps p) 0) as [Z0|Z0]; cbn [negb].
  1: { exfalso. assert (J = i) by lia. subst J. destruct HJ2 as [HJ2|HJ2]; [congruence|]. unfold steps_at in HJ2. rewrite EP in HJ2. contradiction. }
  1,3: pose proof (s32_nonzero _ B2 Z0) as N; unfold shl;
    destruct (chk32 (ph_value p * 2 ^ sq_fracShift sq)) as [e|x] eqn:E1; [|apply chk32_err in E1; subst x; exact I]; cbn [bind];
    match goal with |- context [chk32 ?z] => destruct (chk32 z) as [df|x] eqn:E2; [|apply chk32_err in E2; subst x; exact I] end; cbn [bind];
    unfold cdiv; replace (s32 (ph_steps p) =? 0) with false by lia;
    match goal with |- context [chk32 ?z] => destruct (chk32 z) as [dl|x] eqn:E3; [|apply chk32_err in E3; subst x; exact I] end; cbn [bind negb];
    cbn [fine fst snd]; split; [right; stc; lia|exact NR].
  unfold shl. destruct (chk32 (ph_value p * 2 ^ sq_fracShift sq)) as [e|x] eqn:E1; [|apply chk32_err in E1; subst x; exact I]. cbn [bind]. stc.
  rewrite chk32_ok by lia. cbn [bind]. stc. cbn [Z.eqb].
  assert (NJ : J <> i). { intros ->. destruct HJ2 as [HJ2|HJ2]; [congruence|]. unfold steps_at in HJ2. rewrite EP in HJ2. contradiction. }
  destruct fuel as [|fuel]; [lia|]. rewrite env_loop_zero by reflexivity. apply (IH _ _ _ (S i)).
  - exists J. split; [lia|exact HJ2].
  - stc. apply I1. exact HI.
  - stc. exact HP.
  - stc. lia.
  - lia.
  - exact NR.
Qed.

Lemma fine_weaken {A} (P Q : A -> Prop) r : (forall a, P a -> Q a) -> fine P r -> fine Q r.
Proof. intros H. destruct r as [a|[]]; cbn; auto. Qed.
Lemma total_step st level fuel : tinv st -> 0 <= level -> (2 * length phases < fuel)%nat ->
  fine (fun p => tinv (fst p) /\ (st_offset st <> BK_INT_MAX -> snd p <> 0)) (BKSequenceFuncEnvelopeStep fuel phases sq st level).
Proof.
  intros T HL HF. pose proof W as (W1 & W2 & W3 & W4 & W5). unfold BKSequenceFuncEnvelopeStep, BK_SEQUENCE_STEP_MAX.
  replace (level <? 0) with false by lia. destruct (Z.eqb_spec (st_offset st) BK_INT_MAX) as [E|E]; [split; [exact T|contradiction]|].
  destruct T as [T|(T1 & T2)]; [contradiction|].
  apply (fine_weaken (fun p => tinv (fst p) /\ snd p <> 0)); [tauto|]. rewrite (env_sustain_end phases sq so sl W). cbn [bind].
  destruct (Z.eq_dec (st_steps st) 0) as [Z0|Z0].
  - destruct (order_at phases sq so sl W TT (st_phase st) (st_offset st) T1) as (idx & I1 & ID & IZ).
    destruct fuel as [|fuel]; [lia|]. rewrite env_loop_zero by exact Z0. apply (total_tail (st_phase st) idx I1 (2 * length phases) st _ fuel 0 (ID 0%nat) IZ eq_refl T1); [lia|discriminate].
  - specialize (T2 Z0). destruct fuel as [|fuel]; [lia|]. cbn [env_loop]. replace (st_steps st =? 0) with false by lia. cbn [negb].
    destruct (chk32 (st_steps st - 1)) as [k|x] eqn:E1; [|apply chk32_err in E1; subst x; exact I]. cbn [bind]. stc.
    destruct (k >? 0) eqn:EK.
    + destruct (chk32 (st_shiftedValue st + st_delta st)) as [v|x] eqn:E2; [|apply chk32_err in E2; subst x; exact I]. cbn [bind fine fst snd]. split; [right; stc; lia|discriminate].
    + rewrite chk32_ok by lia. cbn [bind].
      match goal with |- context [env_load phases sq _ ?s _] => set (st1 := s) end.
      change (fine (fun p => tinv (fst p) /\ snd p <> 0) (env_tail fuel st1 BK_SEQUENCE_RETURN_STEP)).
      destruct (order_at phases sq so sl W TT (st_phase st1) (st_offset st1)) as (idx & I1 & ID & IZ); [unfold st1; stc; lia|].
      apply (total_tail (st_phase st1) idx I1 (2 * length phases) st1 _ fuel 0 (ID 0%nat) IZ eq_refl); [unfold st1; stc; lia|lia|discriminate].
Qed.


Lemma total_phase st p fuel : tinv st -> (2 * length phases < fuel)%nat -> fine (fun p => tinv (fst p)) (BKSequenceStateSetPhase fuel (Some sq) st p).
Proof.
  intros T HF. pose proof W as (W1 & W2 & W3 & W4 & W5).
  assert (F : forall a : sstate * Z, tinv (fst a) /\ snd a <> 0 -> tinv (fst (let '(st0, result) := a in
      if (result =? BK_SEQUENCE_RETURN_NONE) && (st_offset st0 >=? sq_length sq) then (st_set_offset st0 (sq_length sq), BK_SEQUENCE_RETURN_FINISH) else (st0, result)))).
  { intros (a & r) (HA & HR). cbn [fst snd] in *. unfold BK_SEQUENCE_RETURN_NONE. replace (r =? 0) with false by lia. exact HA. }
  assert (G : forall o ph, 0 <= o <= Z.of_nat (length phases) ->
    fine (fun p => tinv (fst p) /\ snd p <> 0) (BKSequenceFuncEnvelopeStep fuel phases sq (st_set_phase (st_set_offset (st_set_steps st 0) o) ph) 0)).
  { intros o ph HO. assert (NO : o <> BK_INT_MAX) by (unfold BK_INT_MAX; lia).
    eapply fine_weaken; [|apply total_step; [right; stc; lia|lia|exact HF]]. cbv beta. stc. tauto. }
  unfold BKSequenceStateSetPhase. rewrite V. unfold BKSequenceFuncEnvelopeSetPhase, BK_SEQUENCE_PHASE_MUTE, BK_SEQUENCE_PHASE_ATTACK, BK_SEQUENCE_PHASE_RELEASE. cbv zeta.
  destruct (p =? 0); [|destruct (p =? 1); [|destruct (p =? 2)]].
  - unfold shl. match goal with |- context [chk32 ?z] => destruct (chk32 z) as [e|x] eqn:E1; [|apply chk32_err in E1; subst x; exact I] end. cbn [bind]. stc.
    rewrite W1. replace (Z.of_nat (length phases) >=? Z.of_nat (length phases)) with true by lia. cbn. right. stc. lia.
  - eapply fine_bind; [apply G; lia|]. intros a HA. exact (F a HA).
  - rewrite (env_sustain_end phases sq so sl W). cbn [bind]. eapply fine_bind; [apply G; lia|]. intros a HA. exact (F a HA).
  - exact T.
Qed.

Lemma total_value st v : tinv st -> fine tinv (BKSequenceStateSetValue (Some sq) st v).
Proof.
  intros T. unfold BKSequenceStateSetValue. rewrite V. unfold BKSequenceFuncEnvelopeSetValue, shl.
  match goal with |- context [chk32 ?z] => destruct (chk32 z) as [e|x] eqn:E1; [|apply chk32_err in E1; subst x; exact I] end. cbn [bind]. stc.
  destruct (Z.eqb_spec (st_steps st) 0) as [Z0|Z0]; cbn [negb]; [exact T|].
  match goal with |- context [chk32 ?z] => destruct (chk32 z) as [d|x] eqn:E2; [|apply chk32_err in E2; subst x; exact I] end. cbn [bind].
  unfold cdiv. replace (st_steps st =? 0) with false by lia.
  match goal with |- context [chk32 ?z] => destruct (chk32 z) as [dl|x] eqn:E3; [|apply chk32_err in E3; subst x; exact I] end. cbn [bind]. exact T.
Qed.

Lemma total_run fuel ops : (2 * length phases < fuel)%nat -> forall st, tinv st -> (forall l, In (SStep l) ops -> 0 <= l) ->
  fine (fun p => tinv (fst p)) (srun fuel sq st ops).
Proof.
  intros HF. induction ops as [|o ops IH]; intros st T HL; cbn [srun]; [exact T|].
  apply (fine_bind (fun p => tinv (fst p))).
  - destruct o as [p|l|v]; cbn [sstep].
    + apply total_phase; assumption.
    + unfold BKSequenceStateStep. rewrite V. eapply fine_weaken; [|apply total_step; [exact T|apply HL; left; reflexivity|exact HF]]. cbv beta. tauto.
    + eapply fine_bind; [apply total_value; exact T|]. intros st' T'. exact T'.
  - intros (st1 & r) T1. cbn [fst] in T1. eapply fine_bind; [apply (IH st1 T1); intros; apply HL; right; assumption|]. intros (st2 & l) T2. exact T2.
Qed.
End Total.
