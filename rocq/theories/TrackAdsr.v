(** Envelopes made of attack, decay, sustain and release: the exact values of a slot. *)
From Verif Require Import CInt CIntFacts SequenceModel SequenceSpec SequenceProofs EnvelopeProofs EnvelopeProofs2 InstrumentProofs PropertiesSequence.
Ltac Zify.zify_post_hook ::= idtac.
Local Notation ticked := SequenceSpec.ticked.

(** Where an envelope is: so many ticks behind its attack or its release, which began at a value, or
    muted at a value.  Values are in units of 1/32768. *)
Inductive envelope := Att (w : Z) (n : nat) | Rel (w : Z) (n : nat) | Mut (w : Z).
Definition FULL : Z := 32767 * 32768.

Section Adsr.
Context (a de su re : Z).
Hypothesis Ha : 0 <= a < 2 ^ 31.
Hypothesis Hd : 0 <= de < 2 ^ 31.
Hypothesis Hr : 0 <= re < 2 ^ 31.
Hypothesis Hs : 0 <= su <= 32767.

(** The value of an envelope. *)
Definition env_level (e : envelope) : Z :=
  match e with
  | Att w n =>
    let n := Z.of_nat n in
    if n <? a then w + n * Z.quot (FULL - w) a
    else if n <? a + de then FULL + (n - a) * Z.quot (su * 32768 - FULL) de
    else su * 32768
  | Rel w n => w + Z.of_nat n * Z.quot (- w) re
  | Mut w => w
  end.

Lemma quot_between n x y m : 0 <= n <= m -> 0 < m -> Z.min x y <= x + n * Z.quot (y - x) m <= Z.max x y.
Proof.
  intros Hn Hm. destruct (Z.le_gt_cases x y) as [L|L].
  - rewrite Z.quot_div_nonneg by lia. pose proof (Z.mul_div_le (y - x) m Hm). pose proof (Z.div_pos (y - x) m ltac:(lia) Hm). nia.
  - replace (y - x) with (- (x - y)) by lia. rewrite Z.quot_opp_l by lia. rewrite Z.quot_div_nonneg by lia. pose proof (Z.mul_div_le (x - y) m Hm). pose proof (Z.div_pos (x - y) m ltac:(lia) Hm). nia.
Qed.

Definition env_in (w : Z) : Prop := 0 <= w <= FULL.
Definition start_in (e : envelope) : Prop :=
  match e with Att w _ => env_in w | Rel w n => env_in w /\ Z.of_nat n < re | Mut w => env_in w end.
Lemma level_in e : start_in e -> env_in (env_level e).
Proof.
  unfold env_in, FULL. destruct e as [w n|w n|w]; cbn [start_in env_level]; unfold env_in, FULL; intros H.
  - cbv zeta. destruct (Z.ltb_spec (Z.of_nat n) a) as [L|L]; [pose proof (quot_between (Z.of_nat n) w (32767 * 32768) a ltac:(lia) ltac:(lia)); lia|].
    destruct (Z.ltb_spec (Z.of_nat n) (a + de)) as [L2|L2]; [|lia]. pose proof (quot_between (Z.of_nat n - a) (32767 * 32768) (su * 32768) de ltac:(lia) ltac:(lia)). lia.
  - pose proof (quot_between (Z.of_nat n) w 0 re ltac:(lia) ltac:(lia)) as Q. rewrite Z.sub_0_l in Q. lia.
  - exact H.
Qed.

Let ph := adsr_phases a de su re.
Context (sq : sequence).
Hypothesis EC : BKInstrumentSetEnvelopeADSR a de su re = Ok (Some sq, 0).

Lemma adsr_facts : env_facts ph 2 1 sq /\ sq_fracShift sq = 15 /\ sq_length sq = 4.
Proof.
  assert (HM : modest ph).
  { split; [cbn; lia|]. unfold ph, adsr_phases. cbn [In]. intros p [<-|[<-|[<-|[<-|[]]]]]; cbn [ph_value ph_steps]; unfold BK_MAX_VOLUME; lia. }
  pose proof (env_facts_create ph 2 1 sq 0 HM EC) as EF. change (clamp_so (length ph) 2) with 2%nat in EF. change (clamp_sl (length ph) 2 1) with 1%nat in EF. split; [exact EF|].
  destruct (adsr_create a de su re Hs) as (sq' & EC' & FC). assert (sq' = sq) as -> by congruence. split; [exact FC|]. exact (proj1 (ef_wf _ _ _ _ EF)).
Qed.

Definition attacked (w : Z) (n : nat) (st : sstate) (r : Z) : Prop := at_attack ph sq 2 1 w (Z.of_nat n) st r.
Definition released (w : Z) (n : nat) (st : sstate) (r : Z) : Prop := at_release ph sq 2 1 w (Z.of_nat n) st r.

(** What the state of the slot is. *)
Lemma attacked_value w n st r : attacked w n st r -> st_shiftedValue st = env_level (Att w n) /\ st_value st = Z.shiftr (env_level (Att w n)) 15 /\ doneb st = false /\ r <> 4.
Proof.
  destruct adsr_facts as ([W V TT FS HB] & FC & LN).
  intros [(i & k & ET & (p & EP & HK & HS & EQ) & RR & _)|(i & _ & (F1 & _) & _)].
  - cbv zeta in EQ. rewrite FC in EQ. subst st. cbn [st_shiftedValue st_value]. assert (HO : doneb (mk_sstate 1 (ph_steps p - k) (Z.quot (ph_value p * 2 ^ 15 - sh ph sq (attack_index 2 1) w i) (ph_steps p)) (Z.of_nat (attack_index 2 1 i))
      (Z.shiftr (sh ph sq (attack_index 2 1) w i + k * Z.quot (ph_value p * 2 ^ 15 - sh ph sq (attack_index 2 1) w i) (ph_steps p)) 15)
      (sh ph sq (attack_index 2 1) w i + k * Z.quot (ph_value p * 2 ^ 15 - sh ph sq (attack_index 2 1) w i) (ph_steps p)) (ph_value p * 2 ^ 15)) = false).
    { unfold doneb. cbn [st_offset]. rewrite adsr_index. unfold BK_INT_MAX. lia. }
    cut (sh ph sq (attack_index 2 1) w i + k * Z.quot (ph_value p * 2 ^ 15 - sh ph sq (attack_index 2 1) w i) (ph_steps p) = env_level (Att w n)).
    { intros C. split; [exact C|]. split; [rewrite C; reflexivity|]. split; [exact HO|lia]. }
    clear HO. unfold phase_at in EP. rewrite adsr_index in EP. cbn [env_level]. cbv zeta. rewrite ET. destruct i as [|[|i]].
    + cbn [sh begin_at]. cbn in EP. match type of EP with Some ?x = _ => assert (p = x) as -> by congruence end. cbn [ph_value ph_steps] in *. change (BK_MAX_VOLUME * 2 ^ 15) with FULL.
      rewrite Z.add_0_l. replace (k <? a) with true by lia. reflexivity.
    + cbn [Nat.min] in EP. change (Some (mk_sphase de su) = Some p) in EP. assert (p = mk_sphase de su) as -> by congruence. cbn [ph_value ph_steps] in *.
      assert (B1 : begin_at ph (attack_index 2 1) 1 = a) by (cbn; lia). rewrite B1. assert (S1 : sh ph sq (attack_index 2 1) w 1 = FULL) by (unfold sh; rewrite FC; reflexivity). rewrite S1.
      replace (a + k <? a) with false by lia. replace (a + k <? a + de) with true by lia. replace (a + k - a) with k by lia. reflexivity.
    + replace (Nat.min (S (S i)) 2) with 2%nat in EP by lia. change (Some (mk_sphase 240 su) = Some p) in EP. assert (p = mk_sphase 240 su) as -> by congruence. cbn [ph_value ph_steps] in *.
      assert (B2 : begin_at ph (attack_index 2 1) (S (S i)) = a + de + 240 * Z.of_nat i) by exact (adsr_begin a de su re i). rewrite B2. replace (a + de + 240 * Z.of_nat i + k <? a) with false by lia. replace (a + de + 240 * Z.of_nat i + k <? a + de) with false by lia.
      assert (S2 : sh ph sq (attack_index 2 1) w (S (S i)) = su * 2 ^ 15).
      { unfold sh. rewrite FC. unfold phase_at. rewrite adsr_index. destruct i as [|i]; [reflexivity|]. replace (Nat.min (S (S i)) 2) with 2%nat by lia. reflexivity. }
      rewrite S2, Z.sub_diag, Z.quot_0_l by lia. change (2 ^ 15) with 32768. lia.
  - exfalso. unfold phase_at in F1. rewrite adsr_index in F1. apply nth_error_None in F1. cbn in F1. lia.
Qed.
Lemma released_value w n st r : released w n st r ->
  if Z.of_nat n <? re then st_shiftedValue st = env_level (Rel w n) /\ st_value st = Z.shiftr (env_level (Rel w n)) 15 /\ doneb st = false /\ r <> 4
  else st_shiftedValue st = 0 /\ st_value st = 0 /\ st_steps st = 0 /\ doneb st = true /\ (Z.of_nat n = re -> r = 4).
Proof.
  destruct adsr_facts as ([W V TT FS HB] & FC & LN). assert (B1 : begin_at ph (release_index 2 1) 1 = re) by (cbn; lia).
  intros [(i & k & ET & (p & EP & HK & HS & EQ) & RR & _)|(i & BT & (F1 & F2 & F3 & F4 & F5 & F6 & F7) & FR)].
  - cbv zeta in EQ. rewrite FC in EQ. destruct i as [|i]; [|exfalso; unfold phase_at, release_index in EP; assert (nth_error ph (2 + 1 + S i) = None) by (apply nth_error_None; cbn; lia); congruence].
    change (Some (mk_sphase re 0) = Some p) in EP. assert (p = mk_sphase re 0) as -> by congruence. cbn [ph_value ph_steps sh begin_at] in *. rewrite Z.add_0_l in ET. rewrite ET. replace (k <? re) with true by lia.
    subst st. cbn [st_shiftedValue st_value env_level]. rewrite ET. change (0 * 2 ^ 15 - w) with (- w). repeat split; try lia.
  - assert (i = 1)%nat as ->.
    { destruct i as [|[|i]]; [discriminate F1|reflexivity|]. exfalso. apply (F2 1%nat ltac:(lia)). reflexivity. }
    rewrite B1 in *. replace (Z.of_nat n <? re) with false by lia. assert (SH : sh ph sq (release_index 2 1) w 1 = 0) by reflexivity. rewrite SH in *.
    split; [exact F7|]. split; [rewrite F4, Z.shiftr_0_l; reflexivity|]. split; [exact F6|]. split; [unfold doneb; lia|]. intros EN. rewrite FR, EN, Z.eqb_refl. reflexivity.
Qed.

Lemma in_consistent st w : env_in w -> st_shiftedValue st = w -> st_value st = Z.shiftr w 15 -> consistent sq st.
Proof.
  destruct adsr_facts as (_ & FC & _). unfold env_in, FULL. intros H E1 E2. unfold consistent. rewrite FC, E1. split; [exact E2|]. change (2 ^ 30 - 2 ^ 15) with (32767 * 32768). lia.
Qed.

(** The phases of a slot. *)
Lemma adsr_attack fuel st w : (8 < fuel)%nat -> env_in w -> st_shiftedValue st = w -> st_value st = Z.shiftr w 15 ->
  exists st' r, BKSequenceStateSetPhase fuel (Some sq) st 1 = Ok (st', r) /\ attacked w 0 st' r.
Proof.
  intros HF H E1 E2. destruct adsr_facts as ([W V TT FS HB] & FC & LN).
  destruct (attack_phase ph sq 2 1 W V TT FS HB st fuel (in_consistent _ _ H E1 E2) ltac:(cbn; lia)) as (st' & r & E & A & _). rewrite E1 in A. exists st', r. auto.
Qed.
Lemma adsr_release fuel st w : (8 < fuel)%nat -> env_in w -> st_shiftedValue st = w -> st_value st = Z.shiftr w 15 ->
  exists st' r, BKSequenceStateSetPhase fuel (Some sq) st 2 = Ok (st', r) /\ released w 0 st' r.
Proof.
  intros HF H E1 E2. destruct adsr_facts as ([W V TT FS HB] & FC & LN).
  destruct (release_phase ph sq 2 1 W V FS HB st fuel (in_consistent _ _ H E1 E2) ltac:(cbn; lia)) as (st' & r & E & A & _). rewrite E1 in A. exists st', r. auto.
Qed.
Lemma adsr_mute fuel st w : env_in w -> st_value st = Z.shiftr w 15 ->
  BKSequenceStateSetPhase fuel (Some sq) st 0 = Ok (mk_sstate 0 0 0 4 (w / 32768) (w / 32768 * 32768) 0, 4).
Proof.
  intros H E. destruct adsr_facts as ([W V TT FS HB] & FC & LN). unfold BKSequenceStateSetPhase. rewrite V. unfold BKSequenceFuncEnvelopeSetPhase. change (0 =? BK_SEQUENCE_PHASE_MUTE) with true. cbv iota zeta.
  rewrite E, FC, LN, Z.shiftr_div_pow2 by lia. change (2 ^ 15) with 32768. unfold shl. change (2 ^ 15) with 32768.
  rewrite chk32_ok; [reflexivity|]. unfold env_in, FULL in H. pose proof (Z.mul_div_le w 32768 ltac:(lia)). pose proof (Z.div_pos w 32768 ltac:(lia) ltac:(lia)). lia.
Qed.

(** Ticks of a slot. *)
Lemma adsr_attacked fuel w n st r level : (8 < fuel)%nat -> 0 <= level -> attacked w n st r -> exists st' r', BKSequenceStateStep fuel (Some sq) st level = Ok (st', r') /\ attacked w (S n) st' r'.
Proof.
  intros HF HL A. destruct adsr_facts as ([W V TT FS HB] & FC & LN).
  destruct (attack_ticks ph sq 2 1 W V TT FS HB w [level] (Z.of_nat n) st r fuel A) as (st' & outs & E & A').
  - intros l [<-|[]]. exact HL.
  - cbn. lia.
  - cbn [map srun sstep] in E. destruct (BKSequenceStateStep fuel (Some sq) st level) as [[st1 r1]|]; [|discriminate]. cbn [bind] in E.
    match type of E with Ok (?x, ?y) = _ => assert (st' = x /\ outs = y) as (-> & ->) by (split; congruence) end. exists st1, r1. split; [reflexivity|].
    cbn [length map snd last] in A'. unfold attacked. rewrite Nat2Z.inj_succ. exact A'.
Qed.
Lemma adsr_released fuel w n st r level : (8 < fuel)%nat -> 0 <= level -> released w n st r -> exists st' r', BKSequenceStateStep fuel (Some sq) st level = Ok (st', r') /\ released w (S n) st' r'.
Proof.
  intros HF HL A. destruct adsr_facts as ([W V TT FS HB] & FC & LN).
  destruct (release_ticks ph sq 2 1 W V FS HB w [level] (Z.of_nat n) st r fuel A) as (st' & outs & E & A').
  - intros l [<-|[]]. exact HL.
  - cbn. lia.
  - cbn [map srun sstep] in E. destruct (BKSequenceStateStep fuel (Some sq) st level) as [[st1 r1]|]; [|discriminate]. cbn [bind] in E.
    match type of E with Ok (?x, ?y) = _ => assert (st' = x /\ outs = y) as (-> & ->) by (split; congruence) end. exists st1, r1. split; [reflexivity|].
    cbn [length map snd last] in A'. unfold released. rewrite Nat2Z.inj_succ. exact A'.
Qed.
Lemma adsr_muted fuel st level : (0 < fuel)%nat -> 0 <= level -> st_steps st = 0 -> st_phase st <> 1 -> st_offset st = 4 \/ st_offset st = BK_INT_MAX ->
  exists st' r, BKSequenceStateStep fuel (Some sq) st level = Ok (st', r) /\ st_value st' = st_value st /\ st_shiftedValue st' = st_shiftedValue st /\ st_steps st' = 0 /\ st_phase st' <> 1 /\ st_offset st' = BK_INT_MAX.
Proof.
  intros HF HL S0 SP SO. destruct adsr_facts as ([(W1 & W2 & W3 & W4 & W5) V TT FS HB] & FC & LN). unfold BKSequenceStateStep. rewrite V. unfold BKSequenceFuncEnvelopeStep, BK_SEQUENCE_STEP_MAX. replace (level <? 0) with false by lia.
  destruct (Z.eqb_spec (st_offset st) BK_INT_MAX) as [E|E]; [exists st; eexists; split; [reflexivity|]; auto 6|].
  destruct SO as [SO|SO]; [|contradiction]. rewrite W2, W3. change (chk32 (Z.of_nat 2 + Z.of_nat 1)) with (Ok 3). cbn [bind]. destruct fuel as [|fuel]; [lia|]. cbn [env_loop]. rewrite S0. cbn [Z.eqb negb bind].
  unfold env_load, BK_SEQUENCE_PHASE_ATTACK. replace (st_phase st =? 1) with false by lia. cbn [andb]. rewrite SO, LN. cbn [Z.ltb Z.compare Pos.compare Pos.compare_cont bind].
  eexists _, _. split; [reflexivity|]. unfold st_set_offset. cbn. auto 6.
Qed.
End Adsr.
