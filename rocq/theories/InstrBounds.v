(** Instrument states with bounded values: the numbers a track computes with. *)
From Verif Require Import CIntFacts SequenceModel SequenceSpec SequenceProofs EnvelopeProofs EnvelopeProofs2 InstrumentProofs.
Ltac Zify.zify_post_hook ::= idtac.

(** Three lists, element by element. *)
Inductive Forall3 {A B C} (R : A -> B -> C -> Prop) : list A -> list B -> list C -> Prop :=
| Forall3_nil : Forall3 R [] [] []
| Forall3_cons a b c la lb lc : R a b c -> Forall3 R la lb lc -> Forall3 R (a :: la) (b :: lb) (c :: lc).

Lemma Forall3_impl {A B C} (R R' : A -> B -> C -> Prop) la lb lc :
  (forall a b c, R a b c -> R' a b c) -> Forall3 R la lb lc -> Forall3 R' la lb lc.
Proof. intros H. induction 1; constructor; auto. Qed.
Lemma Forall3_length {A B C} (R : A -> B -> C -> Prop) la lb lc :
  Forall3 R la lb lc -> length lb = length la /\ length lc = length la.
Proof. induction 1 as [|? ? ? ? ? ? ? ? (E1 & E2)]; cbn; auto. Qed.
Lemma Forall3_get {A B C} (R : A -> B -> C -> Prop) la lb lc : Forall3 R la lb lc -> forall i, (i < length la)%nat ->
  exists a b c, nth_error la i = Some a /\ nth_error lb i = Some b /\ nth_error lc i = Some c /\ R a b c.
Proof.
  induction 1 as [|a b c la lb lc HR F IH]; intros i Hi; cbn in Hi; [lia|].
  destruct i as [|i]; cbn [nth_error]; [exists a, b, c; auto|]. apply IH. lia.
Qed.
Lemma Forall3_upd {A B C} (R : A -> B -> C -> Prop) la lb lc i x : Forall3 R la lb lc ->
  (forall a b, nth_error la i = Some a -> nth_error lb i = Some b -> R a b x) -> Forall3 R la lb (upd lc i x).
Proof.
  intros F. revert i. induction F as [|a b c la lb lc HR F IH]; intros i H; [destruct i; constructor|].
  destruct i as [|i]; cbn [upd].
  - constructor; [apply H; reflexivity|exact F].
  - constructor; [exact HR|]. apply IH. intros a' b' E1 E2. apply H; assumption.
Qed.

(** Bounds of the values of a slot as exponents of 2: at least the first bits are there in an
    envelope, all values are below the second. *)
Definition seq_bnd (r : Z * Z) (sq : sequence) : Prop :=
  match sq_values sq with
  | VSimple l => Forall (fun v => Z.abs v < 2 ^ snd r) l
  | VEnvelope _ => fst r <= 30 - sq_fracShift sq <= snd r
  end.
Definition good (fuel : nat) (r : Z * Z) (sq : sequence) : Prop := seq_ok fuel sq /\ seq_bnd r sq.
Definition junk (st : sstate) : Prop :=
  0 <= st_phase st <= 2 /\ 0 <= st_steps st < 2 ^ 31 /\ (st_steps st <> 0 -> Z.abs (st_endValue st) <= 2 ^ 30).
Definition sok (fuel : nat) (r : Z * Z) (osq : option sequence) (st : sstate) : Prop :=
  junk st /\ Z.abs (st_value st) < 2 ^ snd r /\
  match osq with None => True | Some sq => good fuel r sq /\ state_ok sq st end.
(** Before a phase is set: the position does not matter. *)
Definition pre (fuel : nat) (r : Z * Z) (osq : option sequence) (st : sstate) : Prop :=
  junk st /\ Z.abs (st_value st) < 2 ^ snd r /\
  match osq with
  | None => True
  | Some sq => good fuel r sq /\ match sq_values sq with VSimple _ => True | VEnvelope _ => consistent sq st end
  end.

Lemma sok_pre fuel r osq st : sok fuel r osq st -> pre fuel r osq st.
Proof.
  unfold sok, pre. intros (J & B & H). split; [exact J|]. split; [exact B|]. destruct osq as [sq|]; [|exact I].
  destruct H as (G & H). split; [exact G|]. unfold state_ok in H. destruct (sq_values sq); [exact I|]. apply H.
Qed.

Lemma pow2_pos n : 0 < 2 ^ Z.max 0 n.
Proof. apply Z.pow_pos_nonneg; lia. Qed.

(** ** One slot *)

Lemma value_bound fs v s : 0 <= fs <= 30 -> v = Z.shiftr s fs -> Z.abs s <= 2 ^ 30 - 2 ^ fs -> Z.abs v < 2 ^ (30 - fs).
Proof.
  intros F -> B. rewrite Z.shiftr_div_pow2 by lia.
  assert (P : 0 < 2 ^ fs) by (apply Z.pow_pos_nonneg; lia).
  assert (E : 2 ^ 30 = 2 ^ fs * 2 ^ (30 - fs)) by (rewrite <- Z.pow_add_r by lia; f_equal; lia).
  rewrite E in B. set (p := 2 ^ fs) in *. set (q := 2 ^ (30 - fs)) in *. clearbody p q.
  assert (L : p * (s / p) <= s) by (apply Z.mul_div_le; lia).
  assert (U : s < p * (s / p) + p) by (pose proof (Z.mod_pos_bound s p P); pose proof (Z.div_mod s p ltac:(lia)); lia).
  set (d := s / p) in *. clearbody d. apply Z.abs_lt. split.
  - assert (- (p * q) < p * d) by lia. nia.
  - assert (p * d < p * q) by lia. nia.
Qed.

Lemma consistent_bound fuel r sq st : good fuel r sq -> (forall l, sq_values sq <> VSimple l) -> consistent sq st -> Z.abs (st_value st) < 2 ^ snd r.
Proof.
  intros (K & B) N (C1 & C2). unfold seq_ok in K. unfold seq_bnd in B. destruct (sq_values sq) as [l|l]; [destruct (N l); reflexivity|].
  destruct K as (_ & so & sl & _ & _ & F & _).
  pose proof (value_bound _ _ _ F C1 C2) as V.
  assert (2 ^ (30 - sq_fracShift sq) <= 2 ^ snd r) by (apply Z.pow_le_mono_r; lia). lia.
Qed.

Lemma steady_junk phases sq st : 0 <= sq_fracShift sq -> steady phases sq st -> junk st.
Proof.
  intros F (_ & _ & H2 & H3 & H4 & _). split; [exact H3|]. split; [exact H4|]. intros N. specialize (H2 N).
  assert (0 < 2 ^ sq_fracShift sq) by (apply Z.pow_pos_nonneg; lia). lia.
Qed.

Lemma steady_sok fuel r sq st l : good fuel r sq -> sq_values sq = VEnvelope l -> steady l sq st -> sok fuel r (Some sq) st.
Proof.
  intros G V ST. split; [|split].
  - destruct G as (K & _). unfold seq_ok in K. rewrite V in K. destruct K as (_ & so & sl & _ & _ & F & _). apply (steady_junk l sq); [lia|exact ST].
  - apply (consistent_bound fuel r sq st G); [intros l'; rewrite V; discriminate|apply ST].
  - split; [exact G|]. unfold state_ok. rewrite V. exact ST.
Qed.

(** A value sequence changes position and value only. *)
Lemma simple_step_keeps l sq st level st' r : BKSequenceFuncSimpleStep l sq st level = Ok (st', r) ->
  st_phase st' = st_phase st /\ st_steps st' = st_steps st /\ st_endValue st' = st_endValue st /\
  (st_value st' = st_value st \/ In (st_value st') l).
Proof.
  unfold BKSequenceFuncSimpleStep. destruct (level <? _). { intros E. injection E as <- <-. auto. }
  destruct (_ =? _). { intros E. injection E as <- <-. auto. }
  destruct (chk32 _) as [e|]; cbn [bind]; [|discriminate].
  assert (M : forall s2 r2, (if st_offset s2 <? sq_length sq then
      let* v := aget l (st_offset s2) in let* off := chk32 (st_offset s2 + 1) in Ok (st_set_offset (st_set_value s2 v) off, r2)
      else Ok (st_set_offset s2 BK_INT_MAX, BK_SEQUENCE_RETURN_FINISH)) = Ok (st', r) ->
      st_phase st' = st_phase s2 /\ st_steps st' = st_steps s2 /\ st_endValue st' = st_endValue s2 /\
      (st_value st' = st_value s2 \/ In (st_value st') l)).
  { intros s2 r2. destruct (_ <? _).
    - destruct (aget l (st_offset s2)) as [v|] eqn:A; cbn [bind]; [|discriminate].
      destruct (chk32 _) as [o|]; cbn [bind]; [|discriminate]. intros E. injection E as <- <-. cbn.
      repeat split; auto. right. unfold aget in A. destruct (_ && _); [|discriminate].
      destruct (nth_error l (Z.to_nat (st_offset s2))) eqn:N; [|discriminate]. injection A as <-. apply nth_error_In in N. exact N.
    - intros E. injection E as <- <-. cbn. auto. }
  destruct (_ && _); intros E; apply M in E; exact E.
Qed.

Lemma simple_phase_keeps l sq st p st' r : 0 <= p <= 2 -> BKSequenceFuncSimpleSetPhase l sq st p = Ok (st', r) ->
  st_phase st' = p /\ st_steps st' = st_steps st /\ st_endValue st' = st_endValue st /\
  (st_value st' = st_value st \/ In (st_value st') l).
Proof.
  intros HP. unfold BKSequenceFuncSimpleSetPhase.
  assert (M : forall off, (if off <? sq_length sq then
      let* v := aget l off in Ok (st_set_phase (st_set_value (st_set_offset st off) v) p, BK_SEQUENCE_RETURN_NONE)
    else Ok (st_set_phase (st_set_offset st BK_INT_MAX) p, BK_SEQUENCE_RETURN_FINISH)) = Ok (st', r) ->
    st_phase st' = p /\ st_steps st' = st_steps st /\ st_endValue st' = st_endValue st /\
    (st_value st' = st_value st \/ In (st_value st') l)).
  { intros off. destruct (_ <? _).
    - destruct (aget l off) as [v|] eqn:A; cbn [bind]; [|discriminate]. intros E. injection E as <- <-. cbn.
      repeat split; auto. right. unfold aget in A. destruct (_ && _); [|discriminate].
      destruct (nth_error l (Z.to_nat off)) eqn:N; [|discriminate]. injection A as <-. apply nth_error_In in N. exact N.
    - intros E. injection E as <- <-. cbn. auto. }
  unfold BK_SEQUENCE_PHASE_MUTE, BK_SEQUENCE_PHASE_ATTACK, BK_SEQUENCE_PHASE_RELEASE.
  destruct (Z.eqb_spec p 0) as [E0|E0]; [apply M|]. destruct (Z.eqb_spec p 1) as [E1|E1]; [apply M|].
  destruct (Z.eqb_spec p 2) as [E2|E2]; [|lia]. destruct (chk32 _) as [o|]; cbn [bind]; [|discriminate]. apply M.
Qed.

Lemma simple_value fuel r sq l v : good fuel r sq -> sq_values sq = VSimple l -> In v l -> Z.abs v < 2 ^ snd r.
Proof. intros (_ & B) V. unfold seq_bnd in B. rewrite V in B. rewrite Forall_forall in B. apply B. Qed.

Lemma sok_tick fuel r osq st level : sok fuel r osq st -> 0 <= level ->
  exists st' c, BKSequenceStateStep fuel osq st level = Ok (st', c) /\ sok fuel r osq st'.
Proof.
  intros HK HL. destruct osq as [sq|]; [|exists st, BK_INVALID_STATE; split; [reflexivity|exact HK]].
  destruct HK as (J & B & G & ST). destruct (slot_tick fuel sq st level (proj1 G) ST HL) as (st' & c & E & ST' & _).
  exists st', c. split; [exact E|].
  destruct (sq_values sq) as [l|l] eqn:V.
  - unfold BKSequenceStateStep in E. rewrite V in E. apply simple_step_keeps in E. destruct E as (E1 & E2 & E3 & E4).
    split; [unfold junk; rewrite E1, E2, E3; exact J|]. split; [|split; [exact G|exact ST']].
    destruct E4 as [->|I]; [exact B|]. apply (simple_value fuel r sq l); assumption.
  - apply (steady_sok fuel r sq st' l G V). unfold state_ok in ST'. rewrite V in ST'. exact ST'.
Qed.

Definition settle (st : sstate) : sstate := st_set_offset (st_set_steps st 0) 0.
Lemma settle_phase fuel sq l st p : sq_values sq = VEnvelope l -> 0 <= p <= 2 ->
  BKSequenceStateSetPhase fuel (Some sq) st p = BKSequenceStateSetPhase fuel (Some sq) (settle st) p.
Proof.
  intros V HP. unfold BKSequenceStateSetPhase. rewrite V. unfold BKSequenceFuncEnvelopeSetPhase.
  unfold BK_SEQUENCE_PHASE_MUTE, BK_SEQUENCE_PHASE_ATTACK, BK_SEQUENCE_PHASE_RELEASE.
  destruct (Z.eqb_spec p 0) as [E0|E0]; [reflexivity|]. destruct (Z.eqb_spec p 1) as [E1|E1]; [reflexivity|].
  destruct (Z.eqb_spec p 2) as [E2|E2]; [reflexivity|lia].
Qed.

Lemma settle_steady l sq st : 0 <= sq_fracShift sq -> junk st -> consistent sq st -> steady l sq (settle st).
Proof.
  intros F (J1 & J2 & J3) C. pose proof C as (C1 & C2). unfold steady, settle. cbn [st_offset st_steps st_endValue st_phase st_shiftedValue st_delta st_set_offset st_set_steps].
  split; [exact C|]. split; [right; lia|]. split; [congruence|]. split; [exact J1|]. split; [lia|]. split; [congruence|].
  rewrite Z.mul_0_l, Z.add_0_r. exact C2.
Qed.

Lemma pre_phase fuel r osq st p : pre fuel r osq st -> 0 <= p <= 2 ->
  exists st' c, BKSequenceStateSetPhase fuel osq st p = Ok (st', c) /\ sok fuel r osq st'.
Proof.
  intros HK HP. destruct osq as [sq|]; [|exists st, BK_INVALID_STATE; split; [reflexivity|exact HK]].
  destruct HK as (J & B & G & C). destruct (sq_values sq) as [l|l] eqn:V.
  - pose proof G as (K & _). unfold seq_ok in K. rewrite V in K. destruct K as (so & sl & W).
    assert (HO : exists o, ((p = 0 /\ o = length l) \/ (p = 1 /\ o = O) \/ (p = 2 /\ o = (so + sl)%nat)) /\ (o <= length l)%nat).
    { assert (D : p = 0 \/ p = 1 \/ p = 2) by lia. destruct W as (_ & _ & _ & W4 & _).
      destruct D as [->|[->| ->]]; [exists (length l)|exists O|exists (so + sl)%nat]; split; auto; lia. }
    destruct HO as (o & HO & HL). destruct (simple_phase l sq so sl W V fuel st p o HO) as (st' & E & P & M).
    exists st'. eexists. split; [exact E|].
    unfold BKSequenceStateSetPhase in E. rewrite V in E. apply simple_phase_keeps in E; [|exact HP]. destruct E as (E1 & E2 & E3 & E4).
    split; [unfold junk; rewrite E1, E2, E3; split; [exact HP|apply J]|]. split.
    + destruct E4 as [->|I]; [exact B|]. apply (simple_value fuel r sq l); assumption.
    + split; [exact G|]. unfold state_ok. rewrite V. unfold simple_inv. destruct (nth_error l o); destruct M as (_ & ->); [right; lia|left; reflexivity].
  - pose proof G as (K & _). unfold seq_ok in K. rewrite V in K. destruct K as (HF & so & sl & W & T & F & HB).
    pose proof (settle_steady l sq st ltac:(lia) J C) as ST. rewrite (settle_phase fuel sq l st p V HP).
    destruct (slot_phase fuel sq (settle st) p (proj1 G)) as (st' & c & E & ST' & _); [unfold state_ok; rewrite V; exact ST|exact HP|].
    exists st', c. split; [exact E|]. apply (steady_sok fuel r sq st' l G V). unfold state_ok in ST'. rewrite V in ST'. exact ST'.
Qed.

(** The value of a slot is set. *)
Lemma sok_value fuel r sq st v : sok fuel r (Some sq) st -> Z.abs v < 2 ^ fst r -> 0 <= fst r <= snd r ->
  exists st', BKSequenceStateSetValue (Some sq) st v = Ok st' /\ sok fuel r (Some sq) st'.
Proof.
  intros (J & B & G & ST) HV HR. assert (HP : 2 ^ fst r <= 2 ^ snd r) by (apply Z.pow_le_mono_r; lia).
  destruct (sq_values sq) as [l|l] eqn:V.
  - unfold BKSequenceStateSetValue. rewrite V. eexists. split; [reflexivity|]. split; [exact J|]. split; [cbn; lia|]. split; [exact G|].
    unfold state_ok in *. rewrite V in *. exact ST.
  - pose proof G as (K & BB). unfold seq_ok in K. unfold seq_bnd in BB. rewrite V in K, BB. destruct K as (HF & so & sl & W & T & F & HB).
    unfold state_ok in ST. rewrite V in ST.
    destruct (steady_value l sq V F st v ST) as (st' & E & ST' & _).
    { assert (E : 2 ^ 30 = 2 ^ (30 - sq_fracShift sq) * 2 ^ sq_fracShift sq) by (rewrite <- Z.pow_add_r by lia; f_equal; lia).
      assert (Q : 2 ^ fst r <= 2 ^ (30 - sq_fracShift sq)) by (apply Z.pow_le_mono_r; lia).
      assert (P : 0 < 2 ^ sq_fracShift sq) by (apply Z.pow_pos_nonneg; lia). rewrite E. nia. }
    exists st'. split; [exact E|]. apply (steady_sok fuel r sq st' l G V ST').
Qed.

(** A state of any sequence before is given a sequence and the value 0. *)
Lemma junk_zero fuel r sq st : junk st -> good fuel r sq -> 0 <= snd r ->
  exists st', BKSequenceStateSetValue (Some sq) st 0 = Ok st' /\ pre fuel r (Some sq) st'.
Proof.
  intros J G HR. pose proof J as (J1 & J2 & J3). assert (P : 0 < 2 ^ snd r) by (apply Z.pow_pos_nonneg; lia).
  unfold BKSequenceStateSetValue. destruct (sq_values sq) as [l|l] eqn:V.
  - eexists. split; [reflexivity|]. split; [exact J|]. split; [cbn; lia|]. split; [exact G|]. rewrite V. exact I.
  - pose proof G as (K & BB). unfold seq_ok in K. rewrite V in K. destruct K as (HF & so & sl & W & T & F & HB).
    assert (PF : 0 < 2 ^ sq_fracShift sq) by (apply Z.pow_pos_nonneg; lia).
    assert (PF' : 2 ^ sq_fracShift sq <= 2 ^ 30) by (apply Z.pow_le_mono_r; lia).
    unfold BKSequenceFuncEnvelopeSetValue, shl. rewrite Z.mul_0_l, chk32_ok by lia. cbn [bind].
    cbn [st_steps st_endValue st_set_shifted st_set_value st_phase st_delta st_offset st_shiftedValue].
    assert (Fin : forall st', st_phase st' = st_phase st -> st_steps st' = st_steps st -> st_endValue st' = st_endValue st ->
        st_shiftedValue st' = 0 -> pre fuel r (Some sq) (st_set_value st' 0)).
    { intros st' E1 E2 E3 E4. split; [unfold junk; cbn; rewrite E1, E2, E3; exact J|]. split; [cbn; lia|]. split; [exact G|]. rewrite V.
      unfold consistent. cbn [st_value st_shiftedValue st_set_value]. rewrite E4. rewrite Z.shiftr_0_l. split; [reflexivity|]. lia. }
    destruct (Z.eqb_spec (st_steps st) 0) as [E0|E0]; cbn [negb].
    + eexists. split; [reflexivity|]. apply Fin; reflexivity.
    + specialize (J3 E0). rewrite Z.sub_0_r, chk32_ok by lia. cbn [bind]. unfold cdiv.
      destruct (Z.eqb_spec (st_steps st) 0) as [E1|_]; [lia|].
      assert (Q : Z.abs (Z.quot (st_endValue st) (st_steps st)) <= Z.abs (st_endValue st)).
      { rewrite <- Z.quot_abs by lia. rewrite (Z.abs_eq (st_steps st)) by lia.
        rewrite Z.quot_div_nonneg by lia. apply Z.div_le_upper_bound; [lia|]. nia. }
      rewrite chk32_ok by lia. cbn [bind]. eexists. split; [reflexivity|]. apply Fin; reflexivity.
Qed.

(** ** All slots *)

Lemma phase_loop_bnd fuel p num : 0 <= p <= 2 -> forall rs sqs sts i active,
  Forall3 (pre fuel) rs sqs sts -> (forall j, i + Z.of_nat j >= num -> nth j sqs None = None) ->
  exists sts' a, set_phase_loop fuel num i sqs sts p active = Ok (sts', a) /\ Forall3 (sok fuel) rs sqs sts'.
Proof.
  intros HP rs sqs sts i active F. revert i active. induction F as [|r sq st rs sqs sts HR F IH]; intros i active HN.
  - cbn. eexists _, _. split; [reflexivity|constructor].
  - cbn [set_phase_loop]. destruct (Z.ltb_spec i num) as [L|L].
    + assert (HN' : forall j, i + 1 + Z.of_nat j >= num -> nth j sqs None = None).
      { intros j Hj. apply (HN (S j)). lia. }
      destruct (pre_phase fuel r sq st p HR HP) as (st' & c & E & K).
      destruct sq as [q|].
      * rewrite E. cbn [bind]. destruct (IH (i + 1) (if c =? BK_SEQUENCE_RETURN_FINISH then active else active + 1) HN') as (sts' & a & E2 & F2).
        rewrite E2. cbn [bind]. eexists _, _. split; [reflexivity|]. constructor; assumption.
      * cbn [bind]. destruct (IH (i + 1) active HN') as (sts' & a & E2 & F2). rewrite E2. cbn [bind].
        eexists _, _. split; [reflexivity|]. constructor; [exact HR|exact F2].
    + eexists _, _. split; [reflexivity|]. pose proof (HN O ltac:(lia)) as E0. cbn in E0. subst sq.
      constructor; [exact HR|].
      assert (HN' : forall j, nth j sqs None = None) by (intros j; apply (HN (S j)); lia).
      clear - F HN'. induction F as [|r sq st rs sqs sts HR F IH]; [constructor|].
      pose proof (HN' O) as E0. cbn in E0. subst sq. constructor; [exact HR|]. apply IH. intros j. apply (HN' (S j)).
Qed.

Lemma num_ge l : forall j, Z.of_nat j >= num_sequences l 0 0 -> nth j l None = None.
Proof. destruct (num_sequences_ok l 0 0 ltac:(lia)) as (_ & H). intros j Hj. apply H. lia. Qed.

(** What a track keeps about its instrument state. *)
Lemma iphase fuel rs sqs s p : Forall3 (pre fuel) rs sqs (is_states s) -> 0 <= p <= 2 -> 0 <= is_phase s <= 2 ->
  (p = 2 -> Forall3 (sok fuel) rs sqs (is_states s)) ->
  exists s', BKInstrumentStateSetPhase fuel (BKInstrumentUpdateNumSequences sqs) s p = Ok s' /\
    Forall3 (sok fuel) rs sqs (is_states s') /\ 0 <= is_phase s' <= 2 /\
    (p = 0 -> is_phase s' = 0) /\ (is_muted s' <> is_muted s -> is_phase s' = 0) /\
    (is_phase s = 0 -> p = 0 -> is_muted s' = is_muted s).
Proof.
  intros F HP HS HK. unfold BKInstrumentStateSetPhase.
  unfold BK_SEQUENCE_PHASE_MUTE, BK_SEQUENCE_PHASE_ATTACK, BK_SEQUENCE_PHASE_RELEASE.
  destruct ((is_phase s =? 2) && (p =? 2)) eqn:C.
  { apply andb_prop in C. destruct C as (_ & C). apply Z.eqb_eq in C. exists s. split; [reflexivity|]. split; [apply HK; exact C|].
    split; [exact HS|]. split; [lia|]. split; [congruence|auto]. }
  replace ((0 <=? p) && (p <=? 2)) with true by (symmetry; apply andb_true_intro; split; apply Z.leb_le; lia).
  destruct (phase_loop_bnd fuel p (num_sequences sqs 0 0) HP rs sqs (is_states s) 0 0 F) as (sts' & a & E & F').
  { intros j Hj. apply num_ge. lia. }
  cbn [in_numSequences in_sequences BKInstrumentUpdateNumSequences]. rewrite E. cbn [bind].
  set (ph := if (a =? 0) && (p =? 2) then 0 else p).
  assert (HQ : ph = 0 \/ ph = p) by (clear; unfold ph; destruct ((a =? 0) && (p =? 2)); [left; reflexivity|right; reflexivity]).
  assert (H0 : p = 0 -> ph = 0) by (intros PZ; destruct HQ; congruence).
  clearbody ph.
  destruct ((ph =? 1) || (ph =? 2)) eqn:D.
  { eexists. split; [reflexivity|]. cbn [is_states is_phase is_muted]. split; [exact F'|].
    apply orb_prop in D. assert (ph = 1 \/ ph = 2) by (destruct D as [D|D]; apply Z.eqb_eq in D; auto).
    split; [lia|]. split; [intros PZ; specialize (H0 PZ); lia|]. split; [intros NE; destruct NE; reflexivity|reflexivity]. }
  assert (E0 : ph = 0). { apply orb_false_iff in D. destruct D as (D1 & D2). apply Z.eqb_neq in D1, D2. lia. }
  rewrite E0. change (0 =? 0) with true. cbn match.
  destruct (Z.eqb_spec (is_phase s) 0) as [Z0|Z0]; cbn [negb].
  - eexists. split; [reflexivity|]. cbn [is_states is_phase is_muted]. split; [exact F'|]. split; [lia|]. split; [auto|]. split; [congruence|auto].
  - eexists. split; [reflexivity|]. cbn [is_states is_phase is_muted]. split; [exact F'|]. split; [lia|]. split; [auto|]. split; [auto|lia].
Qed.

(** Default values: every state is prepared for its new sequence. *)
Definition default_ok (r : Z * Z) (d : Z) : Prop := 0 <= snd r /\ Z.abs d < 2 ^ snd r.
Lemma defaults_ok fuel rs sqs sts dvs : Forall2 default_ok rs dvs ->
  Forall2 (fun r sq => match sq with Some q => good fuel r q | None => True end) rs sqs ->
  length sts = length rs -> Forall junk sts ->
  exists sts', set_defaults sqs dvs sts = Ok sts' /\ Forall3 (pre fuel) rs sqs sts'.
Proof.
  intros FD. revert sqs sts. induction FD as [|r d rs dvs (HR & HD) FD IH]; intros sqs sts FG HL FJ.
  - inversion FG; subst. destruct sts; [|discriminate]. cbn. eexists. split; [reflexivity|constructor].
  - inversion FG as [|? sq ? sqs' HG FG']; subst. destruct sts as [|st sts]; [discriminate|]. inversion FJ as [|? ? J FJ']; subst.
    cbn [set_defaults]. destruct (IH sqs' sts FG' ltac:(cbn in HL; lia) FJ') as (sts' & E & F').
    destruct sq as [q|].
    + destruct (junk_zero fuel r q st J HG HR) as (st' & E1 & K). rewrite E1. cbn [bind]. rewrite E. cbn [bind].
      eexists. split; [reflexivity|]. constructor; assumption.
    + cbn [BKSequenceStateSetValue bind]. rewrite E. cbn [bind]. eexists. split; [reflexivity|]. constructor; [|exact F'].
      split; [exact J|]. split; [exact HD|exact I].
Qed.

Lemma pre_junk fuel rs sqs sts : Forall3 (pre fuel) rs sqs sts -> Forall junk sts.
Proof. induction 1 as [|? ? ? ? ? ? (J & _) F IH]; constructor; assumption. Qed.
Lemma sok_pre_all fuel rs sqs sts : Forall3 (sok fuel) rs sqs sts -> Forall3 (pre fuel) rs sqs sts.
Proof. apply Forall3_impl. intros. apply sok_pre. assumption. Qed.
Lemma sok_good fuel rs sqs sts : Forall3 (sok fuel) rs sqs sts ->
  Forall2 (fun r sq => match sq with Some q => good fuel r q | None => True end) rs sqs.
Proof. induction 1 as [|r sq ? ? ? ? (_ & _ & G) F IH]; constructor; [destruct sq; [apply G|exact I]|exact IH]. Qed.

(** The four slots of a track: volume, panning, pitch and duty cycle. *)
Definition slot_ranges : list (Z * Z) := [(0, 15); (0, 27); (0, 27); (4, 27)].
Lemma slot_defaults : Forall2 default_ok slot_ranges sequenceDefaultValue.
Proof. repeat constructor; discriminate. Qed.
