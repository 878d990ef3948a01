(** Instruments: slots played together, end reported by the mute event. *)
From Verif Require Import CIntFacts SequenceModel SequenceSpec SequenceProofs EnvelopeProofs EnvelopeProofs2.
Ltac Zify.zify_post_hook ::= idtac.

Lemma Forall2_length {A B} (R : A -> B -> Prop) l l' : Forall2 R l l' -> length l = length l'.
Proof. induction 1; cbn; congruence. Qed.

(** ** One slot *)

(** A sequence as made by the constructors with bounded values. *)
Definition seq_ok (fuel : nat) (sq : sequence) : Prop :=
  match sq_values sq with
  | VSimple vals => exists so sl, seq_wf sq (length vals) so sl
  | VEnvelope phases => (2 * length phases < fuel)%nat /\ exists so sl, seq_wf sq (length phases) so sl /\ takes_time phases so sl /\
      0 <= sq_fracShift sq <= 30 /\
      forall p, In p phases -> Z.abs (ph_value p) * 2 ^ sq_fracShift sq <= 2 ^ 30 - 2 ^ sq_fracShift sq /\ 0 <= ph_steps p < 2 ^ 31
  end.
Definition state_ok (sq : sequence) (st : sstate) : Prop :=
  match sq_values sq with
  | VSimple vals => simple_inv vals st
  | VEnvelope phases => steady phases sq st
  end.

Lemma slot_tick fuel sq st level : seq_ok fuel sq -> state_ok sq st -> 0 <= level ->
  exists st' r, BKSequenceStateStep fuel (Some sq) st level = Ok (st', r) /\ state_ok sq st' /\
    (done st -> st' = st /\ r <> 4) /\ (~ done st -> (r = 4 <-> done st')).
Proof.
  unfold seq_ok, state_ok, done. intros Q SK HL. destruct (sq_values sq) as [vals|phases] eqn:V.
  - destruct Q as (so & sl & W). pose proof W as (W1 & W2 & W3 & W4 & W5).
    destruct (Z.lt_ge_cases level 1) as [L|L].
    { rewrite (simple_step_undivided vals sq V fuel st level L). exists st, 0. split; [reflexivity|]. split; [exact SK|]. split; [intros; split; [reflexivity|lia]|]. intros N. split; [lia|contradiction]. }
    destruct (Z.eq_dec (st_offset st) BK_INT_MAX) as [E|E].
    { rewrite (simple_step_done vals sq V fuel st level E). exists st, 0. split; [reflexivity|]. split; [exact SK|]. split; [intros; split; [reflexivity|lia]|contradiction]. }
    destruct SK as [SK|SK]; [contradiction|]. unfold simple_inv.
    destruct (Z.eq_dec (st_phase st) 1) as [P|P].
    + destruct (simple_step_attack vals sq so sl W V fuel st level _ P eq_refl SK L) as (st' & r & ES & P' & M).
      exists st', r. split; [exact ES|]. set (w := wrap (Z.of_nat so) (Z.of_nat (so + sl)) (st_offset st)) in *.
      destruct (nth_error vals (Z.to_nat w)) as [v|] eqn:EN; destruct M as (M1 & M2 & M3).
      * assert (0 <= w < Z.of_nat (length vals)).
        { assert (Z.to_nat w < length vals)%nat by (apply nth_error_Some; congruence). unfold w, wrap in *. destruct (st_offset st >=? _); lia. }
        rewrite M2. unfold BK_INT_MAX. split; [right; lia|]. split; [contradiction|]. intros _. rewrite M3. destruct (st_offset st >=? _); lia.
      * rewrite M2. split; [left; reflexivity|]. split; [contradiction|]. intros _. rewrite M3. tauto.
    + destruct (simple_step_other vals sq so sl W V fuel st level _ P eq_refl SK L) as (st' & r & ES & P' & M).
      exists st', r. split; [exact ES|].
      destruct (nth_error vals (Z.to_nat (st_offset st))) as [v|] eqn:EN; destruct M as (M1 & M2 & M3).
      * assert (Z.to_nat (st_offset st) < length vals)%nat by (apply nth_error_Some; congruence).
        rewrite M2. unfold BK_INT_MAX. split; [right; lia|]. split; [contradiction|]. intros _. rewrite M3. lia.
      * rewrite M2. split; [left; reflexivity|]. split; [contradiction|]. intros _. rewrite M3. tauto.
  - destruct Q as (HF & so & sl & W & TT & FS & HB).
    destruct (steady_tick phases sq so sl W V TT FS HB st fuel level SK HL HF) as (st' & r & E & S' & P & M).
    exists st', r. split; [exact E|]. split; [exact S'|]. destruct (Z.eqb_spec (st_offset st) BK_INT_MAX) as [E1|E1].
    + destruct M as (-> & ->). split; [intros _; split; [reflexivity|lia]|contradiction].
    + split; [contradiction|]. intros _. destruct (Z.eqb_spec (st_offset st') BK_INT_MAX) as [E2|E2]; [tauto|]. split; [lia|contradiction].
Qed.

Lemma slot_phase fuel sq st p : seq_ok fuel sq -> state_ok sq st -> 0 <= p <= 2 ->
  exists st' r, BKSequenceStateSetPhase fuel (Some sq) st p = Ok (st', r) /\ state_ok sq st' /\ st_phase st' = p /\
    (p <> 0 -> (r = 4 <-> done st')) /\ (p = 0 -> r = 4).
Proof.
  unfold seq_ok, state_ok, done. intros Q SK HP. destruct (sq_values sq) as [vals|phases] eqn:V.
  - destruct Q as (so & sl & W). pose proof W as (W1 & W2 & W3 & W4 & W5).
    assert (HO : exists o, (p = 0 /\ o = length vals) \/ (p = 1 /\ o = O) \/ (p = 2 /\ o = (so + sl)%nat)).
    { assert (D : p = 0 \/ p = 1 \/ p = 2) by lia. destruct D as [D|[D|D]]; eexists; eauto. }
    destruct HO as (o & HO). destruct (simple_phase vals sq so sl W V fuel st p o HO) as (st' & E & P & M).
    eexists _, _. split; [exact E|]. unfold simple_inv. destruct (nth_error vals o) as [v|] eqn:EN; destruct M as (M1 & M2).
    + assert (o < length vals)%nat by (apply nth_error_Some; congruence). rewrite M2. unfold BK_INT_MAX. split; [right; lia|]. split; [exact P|]. split; [intros; lia|]. lia.
    + rewrite M2. split; [left; reflexivity|]. split; [exact P|]. split; [tauto|lia].
  - destruct Q as (HF & so & sl & W & TT & FS & HB).
    destruct (steady_phase phases sq so sl W V TT FS HB st fuel p SK HF) as (st' & r & E & S' & M1 & M2 & M3).
    exists st', r. split; [exact E|]. split; [exact S'|]. assert (D : p = 0 \/ (p = 1 \/ p = 2)) by lia. destruct D as [->|D].
    + destruct (M2 eq_refl) as (P & _ & _ & R). split; [exact P|]. split; [lia|auto].
    + destruct (M1 D) as (P & M). split; [exact P|]. split; [|lia]. intros _. destruct (Z.eqb_spec (st_offset st') BK_INT_MAX) as [E2|E2]; [tauto|]. split; [lia|contradiction].
Qed.

(** ** All slots *)

Definition slot_ok (fuel : nat) (sq : option sequence) (st : sstate) : Prop :=
  match sq with Some q => seq_ok fuel q /\ state_ok q st | None => True end.

Lemma unfinished_nonneg sqs : forall sts, 0 <= unfinished sqs sts.
Proof. induction sqs as [|sq sqs IH]; intros [|st sts]; cbn; try lia. specialize (IH sts). destruct sq; destruct (doneb st); lia. Qed.

Lemma set_phase_loop_ok fuel p num : 0 <= p <= 2 -> forall sqs sts i active,
  Forall2 (slot_ok fuel) sqs sts -> (forall j, i + Z.of_nat j >= num -> nth j sqs None = None) ->
  let sts' := map (phase_slot fuel p) (combine sqs sts) in
  set_phase_loop fuel num i sqs sts p active = Ok (sts', active + if p =? 0 then 0 else unfinished sqs sts') /\
  Forall2 (slot_ok fuel) sqs sts'.
Proof.
  intros HP. induction sqs as [|sq sqs IH]; intros sts i active F HN; inversion F as [|sq0 st sqs0 sts0 F1 F2]; subst.
  - cbn. split; [destruct (p =? 0); f_equal; f_equal; lia|constructor].
  - cbn [set_phase_loop combine map]. destruct (IH sts0 (i + 1) active F2) as (_ & G2).
    { intros j Hj. apply (HN (S j)). lia. }
    destruct (i <? num) eqn:EI.
    + destruct sq as [q|].
      * destruct F1 as (Q & SK). destruct (slot_phase fuel q st p Q SK HP) as (st' & r & E & S' & P' & M1 & M2).
        rewrite E. cbn [bind]. unfold BK_SEQUENCE_RETURN_FINISH.
        destruct (IH sts0 (i + 1) (if r =? 4 then active else active + 1) F2) as (G1 & _). { intros j Hj. apply (HN (S j)). lia. }
        rewrite G1. cbn [bind].
        assert (EP : phase_slot fuel p (Some q, st) = st') by (unfold phase_slot; cbn [fst snd]; rewrite E; reflexivity).
        rewrite EP. split; [|constructor; [split; [exact Q|exact S']|exact G2]].
        f_equal. f_equal. destruct (Z.eqb_spec p 0) as [P0|P0].
        -- specialize (M2 P0). replace (r =? 4) with true by lia. lia.
        -- specialize (M1 P0). cbn [unfinished]. unfold doneb. destruct (Z.eqb_spec (st_offset st') BK_INT_MAX) as [D|D].
           ++ assert (r = 4) by (apply M1; exact D). replace (r =? 4) with true by lia. lia.
           ++ assert (r <> 4) by (intros R; apply D; apply M1; exact R). replace (r =? 4) with false by lia. lia.
      * cbn [bind]. destruct (IH sts0 (i + 1) active F2) as (G1 & _). { intros j Hj. apply (HN (S j)). lia. }
        rewrite G1. cbn [bind]. split; [|constructor; [exact I|exact G2]]. cbn [unfinished]. reflexivity.
    + assert (A : forall l (s : list sstate), (forall j, nth j l None = None) -> length l = length s ->
        map (phase_slot fuel p) (combine l s) = s /\ unfinished l s = 0).
      { clear. induction l as [|x l IH]; intros [|y s] HN HL; try discriminate; [split; reflexivity|].
        cbn. pose proof (HN O) as H0. cbn in H0. subst x. destruct (IH s (fun j => HN (S j)) ltac:(cbn in HL; lia)) as (-> & ->). split; reflexivity. }
      assert (sq = None) by (apply (HN O); lia). subst sq.
      assert (L := Forall2_length _ _ _ F2). destruct (A sqs sts0) as (A1 & A2); [intros j; apply (HN (S j)); lia|exact L|].
      unfold phase_slot at 1. cbn [fst snd]. rewrite A1. split; [|constructor; [exact I|exact F2]].
      cbn [unfinished]. rewrite A2. destruct (p =? 0); f_equal; f_equal; lia.
Qed.

Lemma num_sequences_ok l : forall i n, 0 <= n <= i -> let m := num_sequences l i n in
  n <= m <= i + Z.of_nat (length l) /\ forall j, i + Z.of_nat j >= m -> nth j l None = None.
Proof.
  induction l as [|x l IH]; intros i n Hn m.
  - cbn in m. subst m. cbn. split; [lia|]. intros [|j]; reflexivity.
  - unfold m. destruct x as [q|]; cbn [num_sequences length].
    + unfold BKMax. replace (n >? i + 1) with false by lia. destruct (IH (i + 1) (i + 1) ltac:(lia)) as (H1 & H2). split; [lia|].
      intros [|j] Hj; [lia|]. cbn. apply H2. lia.
    + destruct (IH (i + 1) n ltac:(lia)) as (H1 & H2). split; [lia|]. intros [|j] Hj; [reflexivity|]. cbn. apply H2. lia.
Qed.

Section Instr.
Context (fuel : nat) (sqs : list (option sequence)).
Let instr := BKInstrumentUpdateNumSequences sqs.

Definition slots_ok (s : istate) : Prop := Forall2 (slot_ok fuel) sqs (is_states s).
Definition playing (s : istate) : Prop := (is_phase s = 1 \/ is_phase s = 2) /\ is_numActive s = unfinished sqs (is_states s).

Lemma phase_set s p : slots_ok s -> 0 <= p <= 2 -> ~ (is_phase s = 2 /\ p = 2) ->
  let sts' := map (phase_slot fuel p) (combine sqs (is_states s)) in
  let a := if p =? 0 then 0 else unfinished sqs sts' in
  let mute := (p =? 0) || ((a =? 0) && (p =? 2)) in
  BKInstrumentStateSetPhase fuel instr s p =
    Ok (mk_istate (if mute then 0 else p) a sts' (is_muted s + if mute && negb (is_phase s =? 0) then 1 else 0)) /\
  Forall2 (slot_ok fuel) sqs sts'.
Proof.
  intros SK HP ND sts' a mute. destruct (num_sequences_ok sqs 0 0 ltac:(lia)) as (_ & HN).
  destruct (set_phase_loop_ok fuel p (num_sequences sqs 0 0) HP sqs (is_states s) 0 0 SK HN) as (E & F). split; [|exact F].
  unfold BKInstrumentStateSetPhase, BK_SEQUENCE_PHASE_RELEASE, BK_SEQUENCE_PHASE_MUTE, BK_SEQUENCE_PHASE_ATTACK.
  destruct ((is_phase s =? 2) && (p =? 2)) eqn:E2; [lia|]. replace ((0 <=? p) && (p <=? 2)) with true by lia.
  unfold instr. cbn [in_numSequences in_sequences BKInstrumentUpdateNumSequences]. rewrite E. cbn [bind]. fold sts'. rewrite Z.add_0_l. fold a.
  unfold mute. assert (D : p = 0 \/ p = 1 \/ p = 2) by lia. destruct D as [D|[D|D]]; rewrite D in *; clear D.
  - cbn [Z.eqb andb orb]. rewrite Bool.andb_false_r. cbn [Z.eqb orb]. destruct (Z.eqb_spec (is_phase s) 0) as [P|P]; cbn [negb].
    + rewrite P. rewrite Z.add_0_r. reflexivity.
    + reflexivity.
  - cbn [Z.eqb Pos.eqb andb orb]. rewrite !Bool.andb_false_r. cbn [Z.eqb Pos.eqb orb andb]. rewrite Z.add_0_r. reflexivity.
  - cbn [Z.eqb Pos.eqb andb orb]. rewrite Bool.andb_true_r. destruct (a =? 0); cbn [Z.eqb Pos.eqb andb orb].
    + destruct (Z.eqb_spec (is_phase s) 0) as [P|P]; cbn [negb]; [rewrite P, Z.add_0_r; reflexivity|reflexivity].
    + rewrite Z.add_0_r. reflexivity.
Qed.

(** *** Ticks *)

Lemma slots_get s i : slots_ok s -> (i < length sqs)%nat -> exists sq st, nth_error sqs i = Some sq /\ nth_error (is_states s) i = Some st /\ slot_ok fuel sq st.
Proof.
  unfold slots_ok. intros F. revert i. induction F as [|sq st l l' SK F IH]; intros [|i] Hi; cbn in *; try lia.
  - exists sq, st. auto.
  - apply IH. lia.
Qed.
Lemma slots_set s i st ph n m : slots_ok s -> (forall sq, nth_error sqs i = Some sq -> slot_ok fuel sq st) ->
  slots_ok (mk_istate ph n (upd (is_states s) i st) m).
Proof.
  unfold slots_ok. cbn [is_states]. intros F. revert i. induction F as [|sq st0 l l' SK F IH]; intros [|i] H; cbn; constructor; auto.
Qed.

(** A slot's tick inside an instrument. *)
Lemma slot_tick_any sq st level : slot_ok fuel sq st -> 0 <= level -> exists r,
  BKSequenceStateStep fuel sq st level = Ok (tick_slot fuel level (sq, st), r) /\ slot_ok fuel sq (tick_slot fuel level (sq, st)) /\
  match sq with
  | None => r <> 4
  | Some _ => (done st -> tick_slot fuel level (sq, st) = st /\ r <> 4) /\ (~ done st -> (r = 4 <-> done (tick_slot fuel level (sq, st))))
  end.
Proof.
  destruct sq as [q|].
  - intros (Q & SK) HL. destruct (slot_tick fuel q st level Q SK HL) as (st' & r & E & S' & M). exists r.
    unfold tick_slot. cbn [fst snd]. rewrite E. split; [reflexivity|]. split; [split; assumption|exact M].
  - intros _ _. exists BK_INVALID_STATE. split; [reflexivity|]. split; [exact I|discriminate].
Qed.

(** Ticks of a muted state report nothing. *)
Lemma tick_loop_muted n : forall i s level, slots_ok s -> is_phase s = 0 -> is_numActive s <= 0 -> 0 <= level -> (i + n <= length sqs)%nat ->
  exists s', tick_loop fuel n (Z.of_nat i) instr s level = Ok s' /\ slots_ok s' /\ is_phase s' = 0 /\ is_numActive s' <= 0 /\ is_muted s' = is_muted s.
Proof.
  induction n as [|n IH]; intros i s level SK P A HL HI; cbn [tick_loop].
  - exists s. auto.
  - destruct (slots_get s i SK ltac:(lia)) as (sq & st & E1 & E2 & S1). unfold instr at 1. cbn [in_sequences BKInstrumentUpdateNumSequences].
    rewrite (nth_error_aget _ _ _ E1), (nth_error_aget _ _ _ E2). cbn [bind].
    destruct (slot_tick_any sq st level S1 HL) as (r & E3 & S2 & _). rewrite E3. cbn [bind].
    assert (L := Forall2_length _ _ _ SK). rewrite aset_ok by lia. cbn [bind is_phase is_numActive is_states is_muted]. rewrite Nat2Z.id.
    assert (SET : forall k, slots_ok (mk_istate (is_phase s) k (upd (is_states s) i (tick_slot fuel level (sq, st))) (is_muted s))).
    { intros k. apply slots_set; [exact SK|]. intros q Hq. assert (q = sq) by congruence. subst q. exact S2. }
    replace (Z.of_nat i + 1) with (Z.of_nat (S i)) by lia.
    destruct (r =? BK_SEQUENCE_RETURN_FINISH).
    + replace (is_numActive s - 1 =? 0) with false by lia. cbn [bind].
      match goal with |- exists s', tick_loop _ _ _ _ ?x _ = _ /\ _ => destruct (IH (S i) x level (SET _) P ltac:(cbn; lia) HL ltac:(lia)) as (s' & E & R) end.
      exists s'. split; [exact E|exact R].
    + cbn [bind]. match goal with |- exists s', tick_loop _ _ _ _ ?x _ = _ /\ _ => destruct (IH (S i) x level (SET _) P A HL ltac:(lia)) as (s' & E & R) end.
      exists s'. split; [exact E|exact R].
Qed.

(** States while slot [i] is next. *)
Fixpoint mixed (i : nat) (level : Z) (l : list (option sequence * sstate)) : list sstate :=
  match l, i with
  | [], _ => []
  | x :: l, O => snd x :: mixed 0 level l
  | x :: l, S i => tick_slot fuel level x :: mixed i level l
  end.
Lemma mixed_0 level l : mixed 0 level l = map snd l.
Proof. induction l as [|x l IH]; cbn; [reflexivity|]. rewrite IH. reflexivity. Qed.
Lemma mixed_all i level l : (length l <= i)%nat -> mixed i level l = map (tick_slot fuel level) l.
Proof. revert i. induction l as [|x l IH]; intros [|i] H; cbn in *; try lia; auto. f_equal. apply IH. lia. Qed.
Lemma mixed_length i level l : length (mixed i level l) = length l.
Proof. revert i. induction l as [|x l IH]; intros [|i]; cbn; auto. Qed.
Lemma mixed_upd i level l sq st : nth_error l i = Some (sq, st) -> upd (mixed i level l) i (tick_slot fuel level (sq, st)) = mixed (S i) level l.
Proof.
  revert i. induction l as [|x l IH]; intros [|i] H; cbn in *; try discriminate.
  - injection H as ->. f_equal.
  - f_equal. apply IH. exact H.
Qed.
Lemma mixed_get i level l sq st : nth_error l i = Some (sq, st) -> nth_error (mixed i level l) i = Some st.
Proof. revert i. induction l as [|x l IH]; intros [|i] H; cbn in *; try discriminate; [injection H as ->; reflexivity|apply IH; exact H]. Qed.

Lemma unfinished_upd qs : forall l i sq st st', nth_error qs i = Some sq -> nth_error l i = Some st ->
  unfinished qs (upd l i st') = unfinished qs l + match sq with Some _ => (if doneb st' then 0 else 1) - (if doneb st then 0 else 1) | None => 0 end.
Proof.
  induction qs as [|q qs IH]; intros [|x l] [|i] sq st st' E1 E2; cbn in *; try discriminate.
  - injection E1 as ->. injection E2 as ->. destruct sq; lia.
  - rewrite (IH l i sq st st' E1 E2). lia.
Qed.

Lemma combine_nth (l : list (option sequence)) (l' : list sstate) i a b : nth_error l i = Some a -> nth_error l' i = Some b -> nth_error (combine l l') i = Some (a, b).
Proof. revert l' i. induction l as [|x l IH]; intros [|y l'] [|i] H1 H2; cbn in *; try discriminate; [congruence|apply IH; assumption]. Qed.
Lemma map_snd_combine (l : list (option sequence)) (l' : list sstate) : length l = length l' -> map snd (combine l l') = l'.
Proof. revert l'. induction l as [|x l IH]; intros [|y l'] H; cbn in *; try discriminate; [reflexivity|]. f_equal. apply IH. lia. Qed.

Notation ticked := (ticked fuel sqs).

(** All slots that are done after the tick stay so while the others are ticked. *)
Lemma unfinished_mixed level sts i : Forall2 (slot_ok fuel) sqs sts -> 0 <= level ->
  unfinished sqs (mixed i level (combine sqs sts)) = 0 -> unfinished sqs (ticked level sts) = 0.
Proof.
  unfold ticked. intros F HL. revert i. induction F as [|sq st l l' SK F IH]; intros i H; [destruct i; reflexivity|].
  cbn [combine map unfinished] in *.
  destruct i as [|i].
  - cbn [mixed unfinished] in H. cbn [snd] in H. pose proof (unfinished_nonneg l (mixed 0 level (combine l l'))).
    assert (unfinished l (mixed 0 level (combine l l')) = 0) by (destruct sq; [destruct (doneb st)|]; lia).
    rewrite (IH O) by assumption. destruct (slot_tick_any sq st level SK HL) as (r & _ & _ & M). destruct sq as [q|]; [|reflexivity].
    unfold doneb in *. destruct (Z.eqb_spec (st_offset st) BK_INT_MAX) as [D|D]; [|lia]. destruct M as (M & _). destruct (M D) as (-> & _).
    destruct (Z.eqb_spec (st_offset st) BK_INT_MAX); [reflexivity|contradiction].
  - cbn [mixed unfinished] in H. pose proof (unfinished_nonneg l (mixed i level (combine l l'))).
    assert (unfinished l (mixed i level (combine l l')) = 0) by (destruct sq; [destruct (doneb (tick_slot fuel level (Some s, st)))|]; lia).
    rewrite (IH i) by assumption. destruct sq as [q|]; [|reflexivity]. destruct (doneb (tick_slot fuel level (Some q, st))); lia.
Qed.

Lemma tick_loop_playing n : forall i s sts level, Forall2 (slot_ok fuel) sqs sts -> is_states s = mixed i level (combine sqs sts) -> slots_ok s -> playing s ->
  (0 < unfinished sqs sts -> 0 < unfinished sqs (is_states s)) -> 0 <= level -> (i + n <= length sqs)%nat -> (forall j, (j >= i + n)%nat -> nth j sqs None = None) ->
  exists s', tick_loop fuel n (Z.of_nat i) instr s level = Ok s' /\ slots_ok s' /\
    (if (0 <? unfinished sqs sts) && (unfinished sqs (ticked level sts) =? 0)
     then is_phase s' = 0 /\ is_numActive s' <= 0 /\ is_muted s' = is_muted s + 1
     else is_phase s' = is_phase s /\ is_states s' = ticked level sts /\ playing s' /\ is_muted s' = is_muted s).
Proof.
  assert (REST : forall (l : list (option sequence)) s i level, length l = length s -> (forall j, (j >= i)%nat -> nth j l None = None) -> mixed i level (combine l s) = map (tick_slot fuel level) (combine l s)).
  { clear. induction l as [|x l IH]; intros [|y s] i level HL HN; try (destruct i; reflexivity); try discriminate. cbn [combine map]. destruct i as [|i]; cbn [mixed].
    - assert (x = None) by (apply (HN O); lia). subst x. cbn [snd]. unfold tick_slot at 1. cbn [fst snd]. f_equal. apply IH; [cbn in HL; lia|]. intros j Hj. apply (HN (S j)). lia.
    - f_equal. apply IH; [cbn in HL; lia|]. intros j Hj. apply (HN (S j)). lia. }
  induction n as [|n IH]; intros i s sts level F EM SK PL PU HL HI HN; cbn [tick_loop].
  - exists s. split; [reflexivity|]. split; [exact SK|]. assert (ET : is_states s = ticked level sts).
    { rewrite EM. apply REST; [apply (Forall2_length _ _ _ F)|]. intros j Hj. apply HN. lia. }
    rewrite <- ET. destruct ((0 <? unfinished sqs sts) && (unfinished sqs (is_states s) =? 0)) eqn:EB; [lia|]. auto.
  - assert (L := Forall2_length _ _ _ F). destruct (slots_get s i SK ltac:(lia)) as (sq & st & E1 & E2 & S1). unfold instr at 1. cbn [in_sequences BKInstrumentUpdateNumSequences].
    rewrite (nth_error_aget _ _ _ E1), (nth_error_aget _ _ _ E2). cbn [bind].
    assert (EC : nth_error (combine sqs sts) i = Some (sq, st)).
    { destruct (nth_error sts i) as [st0|] eqn:E0; [|apply nth_error_None in E0; lia]. pose proof (combine_nth _ _ _ _ _ E1 E0) as EC.
      rewrite EM, (mixed_get i level _ _ _ EC) in E2. congruence. }
    destruct (slot_tick_any sq st level S1 HL) as (r & E3 & S2 & M). rewrite E3. cbn [bind].
    assert (LS := Forall2_length _ _ _ SK). rewrite aset_ok by lia. cbn [bind is_phase is_numActive is_states is_muted]. rewrite Nat2Z.id.
    set (st' := tick_slot fuel level (sq, st)) in *.
    assert (SET : forall k, slots_ok (mk_istate (is_phase s) k (upd (is_states s) i st') (is_muted s))).
    { intros k. apply slots_set; [exact SK|]. intros q Hq. assert (q = sq) by congruence. subst q. exact S2. }
    assert (EM' : upd (is_states s) i st' = mixed (S i) level (combine sqs sts)) by (rewrite EM; apply mixed_upd; exact EC).
    assert (UU := unfinished_upd sqs (is_states s) i sq st st' E1 E2).
    replace (Z.of_nat i + 1) with (Z.of_nat (S i)) by lia. unfold BK_SEQUENCE_RETURN_FINISH.
    destruct PL as (P1 & P2). destruct (Z.eqb_spec r 4) as [R|R].
    + assert (US : unfinished sqs (upd (is_states s) i st') = unfinished sqs (is_states s) - 1).
      { destruct sq as [q|]; [|contradiction]. destruct M as (M1 & M2). rewrite UU. unfold doneb.
        destruct (Z.eqb_spec (st_offset st) BK_INT_MAX) as [D|D]; [destruct (M1 D); contradiction|].
        pose proof (proj1 (M2 D) R) as D'. unfold done in D'. rewrite D', Z.eqb_refl. lia. }
      cbn [is_phase is_numActive is_states is_muted]. destruct (Z.eqb_spec (is_numActive s - 1) 0) as [A|A].
      * match goal with |- context [BKInstrumentStateSetPhase _ _ ?x _] => set (s1 := x) end.
        destruct (phase_set s1 0) as (EP & FP); [apply SET|lia|lia|]. cbn [Z.eqb orb negb] in EP, FP.
        change BK_SEQUENCE_PHASE_MUTE with 0. rewrite EP. cbn [bind]. set (s2 := mk_istate 0 0 _ _) in *.
        destruct (tick_loop_muted n (S i) s2 level FP eq_refl ltac:(cbn; lia) HL ltac:(lia)) as (s' & E & S' & Q1 & Q2 & Q3).
        exists s'. split; [exact E|]. split; [exact S'|].
        assert (U0 : unfinished sqs (mixed (S i) level (combine sqs sts)) = 0) by (rewrite <- EM', US; lia).
        rewrite (unfinished_mixed level sts (S i) F HL U0).
        assert (0 < unfinished sqs sts).
        { pose proof (unfinished_nonneg sqs sts). destruct (Z.eq_dec (unfinished sqs sts) 0) as [Z0|]; [|lia]. exfalso.
          assert (Hall : forall k, unfinished sqs (mixed k level (combine sqs sts)) = 0).
          { clear - F HL Z0. induction F as [|q t l l' So F IH]; intros k; [destruct k; reflexivity|]. cbn [combine unfinished] in *.
            pose proof (unfinished_nonneg l l'). assert (Z1 : unfinished l l' = 0) by (destruct q; [destruct (doneb t)|]; lia).
            destruct k as [|k]; cbn [mixed unfinished]; rewrite (IH Z1).
            - cbn [snd]. lia.
            - destruct (slot_tick_any q t level So HL) as (r & _ & _ & M). destruct q as [q|]; [|reflexivity].
              unfold doneb in *. destruct (Z.eqb_spec (st_offset t) BK_INT_MAX) as [D|D]; [|lia]. destruct (proj1 M D) as (-> & _).
              destruct (Z.eqb_spec (st_offset t) BK_INT_MAX); [reflexivity|contradiction]. }
          specialize (Hall i). rewrite <- EM in Hall. lia. }
        replace (0 <? unfinished sqs sts) with true by lia. cbn [andb Z.eqb]. split; [exact Q1|]. split; [exact Q2|]. rewrite Q3.
        unfold s2, s1. cbn [is_muted is_phase]. replace (is_phase s =? 0) with false by lia. reflexivity.
      * cbn [bind]. match goal with |- exists s', tick_loop _ _ _ _ ?x _ = _ /\ _ => set (s1 := x) end.
        destruct (IH (S i) s1 sts level F EM') as (s' & E & S' & Q).
        -- apply SET.
        -- split; [exact P1|]. unfold s1. cbn [is_numActive is_states]. lia.
        -- intros HU. specialize (PU HU). unfold s1. cbn [is_states]. pose proof (unfinished_nonneg sqs (upd (is_states s) i st')). lia.
        -- exact HL.
        -- lia.
        -- intros j Hj. apply HN. lia.
        -- exists s'. split; [exact E|]. split; [exact S'|exact Q].
    + assert (US : unfinished sqs (upd (is_states s) i st') = unfinished sqs (is_states s)).
      { rewrite UU. destruct sq as [q|]; [|lia]. destruct M as (M1 & M2). unfold doneb.
        destruct (Z.eqb_spec (st_offset st) BK_INT_MAX) as [D|D].
        - destruct (M1 D) as (-> & _). rewrite D, Z.eqb_refl. lia.
        - destruct (Z.eqb_spec (st_offset st') BK_INT_MAX) as [D'|D']; [destruct (R (proj2 (M2 D) D'))|lia]. }
      cbn [bind]. match goal with |- exists s', tick_loop _ _ _ _ ?x _ = _ /\ _ => set (s1 := x) end.
      destruct (IH (S i) s1 sts level F EM') as (s' & E & S' & Q).
      * apply SET.
      * split; [exact P1|]. unfold s1. cbn [is_numActive is_states]. lia.
      * intros HU. specialize (PU HU). unfold s1. cbn [is_states]. lia.
      * exact HL.
      * lia.
      * intros j Hj. apply HN. lia.
      * exists s'. split; [exact E|]. split; [exact S'|exact Q].
Qed.

(** *** Whole ticks *)

Lemma num_bound : (Z.to_nat (num_sequences sqs 0 0) <= length sqs)%nat /\ forall j, (j >= 0 + Z.to_nat (num_sequences sqs 0 0))%nat -> nth j sqs None = None.
Proof. destruct (num_sequences_ok sqs 0 0 ltac:(lia)) as (H1 & H2). split; [lia|]. intros j Hj. apply H2. lia. Qed.

Lemma tick_muted s level : slots_ok s -> is_phase s = 0 -> is_numActive s <= 0 -> 0 <= level ->
  exists s', BKInstrumentStateTick fuel instr s level = Ok s' /\ slots_ok s' /\ is_phase s' = 0 /\ is_numActive s' <= 0 /\ is_muted s' = is_muted s.
Proof. intros SK P A HL. destruct num_bound as (B1 & B2). apply (tick_loop_muted _ O); auto. Qed.

Lemma tick_playing s level : slots_ok s -> playing s -> 0 <= level ->
  exists s', BKInstrumentStateTick fuel instr s level = Ok s' /\ slots_ok s' /\
    (if (0 <? unfinished sqs (is_states s)) && (unfinished sqs (ticked level (is_states s)) =? 0)
     then is_phase s' = 0 /\ is_numActive s' <= 0 /\ is_muted s' = is_muted s + 1
     else is_phase s' = is_phase s /\ is_states s' = ticked level (is_states s) /\ playing s' /\ is_muted s' = is_muted s).
Proof.
  intros SK P HL. destruct num_bound as (B1 & B2). apply (tick_loop_playing _ O); auto.
  rewrite mixed_0, map_snd_combine; [reflexivity|apply (Forall2_length _ _ _ SK)].
Qed.

(** *** Histories *)

Definition iinv (s : istate) : Prop := slots_ok s /\ ((is_phase s = 0 /\ is_numActive s <= 0) \/ (playing s /\ (is_phase s = 2 -> 0 < is_numActive s))).

Definition op_ok (o : iop) : Prop := match o with IPhase p => 0 <= p <= 2 | ITick l => 0 <= l end.

Lemma istep_phase s p : iinv s -> 0 <= p <= 2 -> exists s', BKInstrumentStateSetPhase fuel instr s p = Ok s' /\ iinv s' /\
  (is_phase s = 0 -> is_muted s' = is_muted s) /\
  (p = 0 -> is_phase s' = 0 /\ is_muted s' = is_muted s + if is_phase s =? 0 then 0 else 1) /\
  (p = 1 -> is_phase s' = 1 /\ is_states s' = phased fuel sqs 1 (is_states s) /\ is_muted s' = is_muted s) /\
  (p = 2 -> is_phase s <> 2 ->
     if unfinished sqs (phased fuel sqs 2 (is_states s)) =? 0
     then is_phase s' = 0 /\ is_muted s' = is_muted s + if is_phase s =? 0 then 0 else 1
     else is_phase s' = 2 /\ is_states s' = phased fuel sqs 2 (is_states s) /\ is_muted s' = is_muted s) /\
  (p = 2 -> is_phase s = 2 -> s' = s).
Proof.
  intros (SO & IV) HP. destruct ((is_phase s =? 2) && (p =? 2)) eqn:E2.
  - exists s. unfold BKInstrumentStateSetPhase, BK_SEQUENCE_PHASE_RELEASE. rewrite E2. split; [reflexivity|]. split; [split; assumption|].
    split; [auto|]. split; [lia|]. split; [lia|]. split; [lia|auto].
  - destruct (phase_set s p SO HP ltac:(lia)) as (E & F). cbv zeta in E, F. unfold phased.
    set (sts' := map (phase_slot fuel p) (combine sqs (is_states s))) in *.
    set (a := if p =? 0 then 0 else unfinished sqs sts') in *. set (mute := (p =? 0) || ((a =? 0) && (p =? 2))) in *.
    eexists. split; [exact E|]. cbn [is_phase is_states is_muted]. pose proof (unfinished_nonneg sqs sts') as NN.
    split; [split; [exact F|]|].
    { destruct mute eqn:EM.
      - left. cbn [is_phase is_numActive]. split; [reflexivity|]. unfold a, mute in *. destruct (p =? 0); lia.
      - right. unfold playing. cbn [is_phase is_numActive is_states]. unfold mute, a in *. destruct (Z.eqb_spec p 0) as [P0|P0]; [discriminate|].
        split; [split; [lia|reflexivity]|]. intros P2. destruct (Z.eqb_spec (unfinished sqs sts') 0); [|lia]. replace (p =? 2) with true in EM by lia. discriminate. }
    split; [intros P; replace (is_phase s =? 0) with true by lia; cbn [negb]; rewrite Bool.andb_false_r; lia|].
    split; [intros P; unfold mute; replace (p =? 0) with true by lia; cbn [orb andb]; destruct (is_phase s =? 0); cbn [negb]; lia|].
    split; [intros P; unfold mute; replace (p =? 0) with false by lia; replace (p =? 2) with false by lia; rewrite Bool.andb_false_r; cbn [orb andb]; unfold sts'; rewrite P; split; [reflexivity|]; split; [reflexivity|lia]|].
    split; [|lia]. intros P NP. unfold mute, a. replace (p =? 0) with false by lia. replace (p =? 2) with true by lia. rewrite Bool.andb_true_r. cbn [orb]. unfold sts'. rewrite P.
    destruct (unfinished sqs _ =? 0); cbn [andb].
    + split; [reflexivity|]. destruct (is_phase s =? 0); cbn [negb]; lia.
    + split; [reflexivity|]. split; [reflexivity|lia].
Qed.

Lemma istep_tick s l : iinv s -> 0 <= l -> exists s', BKInstrumentStateTick fuel instr s l = Ok s' /\ iinv s' /\
  (is_phase s = 0 -> is_phase s' = 0 /\ is_muted s' = is_muted s) /\
  (is_phase s <> 0 ->
    if (0 <? unfinished sqs (is_states s)) && (unfinished sqs (ticked l (is_states s)) =? 0)
    then is_phase s' = 0 /\ is_muted s' = is_muted s + 1
    else is_phase s' = is_phase s /\ is_states s' = ticked l (is_states s) /\ is_muted s' = is_muted s).
Proof.
  intros (SO & [(P & A)|(PL & A)]) HL.
  - destruct (tick_muted s l SO P A HL) as (s' & E & S' & P' & A' & M'). exists s'. split; [exact E|]. split; [split; [exact S'|left; auto]|]. split; [auto|lia].
  - destruct (tick_playing s l SO PL HL) as (s' & E & S' & Q). exists s'. split; [exact E|]. pose proof PL as (P1 & P2).
    destruct ((0 <? unfinished sqs (is_states s)) && (unfinished sqs (ticked l (is_states s)) =? 0)) eqn:EB.
    + destruct Q as (Q1 & Q2 & Q3). split; [split; [exact S'|left; auto]|]. split; [lia|]. auto.
    + destruct Q as (Q1 & Q2 & Q3 & Q4). split; [split; [exact S'|right; split; [exact Q3|]]|].
      * intros P'. rewrite Q1 in P'. specialize (A P'). destruct Q3 as (_ & Q3). rewrite Q3, Q2. pose proof (unfinished_nonneg sqs (ticked l (is_states s))). lia.
      * split; [lia|]. auto.
Qed.

Lemma istep_ok s o : iinv s -> op_ok o -> exists s', istep fuel instr s o = Ok s' /\ iinv s'.
Proof.
  intros I HO. destruct o as [p|l]; cbn [istep op_ok] in *.
  - destruct (istep_phase s p I HO) as (s' & E & I' & _). eauto.
  - destruct (istep_tick s l I HO) as (s' & E & I' & _). eauto.
Qed.
Lemma irun_ok ops : forall s, iinv s -> (forall o, In o ops -> op_ok o) -> exists s', irun fuel instr s ops = Ok s' /\ iinv s'.
Proof.
  induction ops as [|o ops IH]; intros s I HO; cbn [irun]; [eauto|].
  destruct (istep_ok s o I (HO o (or_introl eq_refl))) as (s1 & E & I1). rewrite E. cbn [bind]. apply IH; auto. intros; apply HO; right; auto.
Qed.

Lemma iinv_phase s : iinv s -> is_phase s = 0 \/ is_phase s = 1 \/ is_phase s = 2.
Proof. intros (_ & [(P & _)|((P & _) & _)]); lia. Qed.

(** Ticks never end the silence. *)
Lemma run_muted levels : forall s, iinv s -> is_phase s = 0 -> (forall l, In l levels -> 0 <= l) ->
  exists s', irun fuel instr s (map ITick levels) = Ok s' /\ iinv s' /\ is_phase s' = 0 /\ is_muted s' = is_muted s.
Proof.
  induction levels as [|l levels IH]; intros s I P HL; cbn [map irun]; [eauto|].
  cbn [istep]. destruct (istep_tick s l I (HL l (or_introl eq_refl))) as (s1 & E & I1 & Q & _). rewrite E. cbn [bind]. destruct (Q P) as (P1 & M1).
  destruct (IH s1 I1 P1 ltac:(intros; apply HL; right; auto)) as (s' & E' & I' & P' & M'). exists s'. split; [exact E'|]. split; [exact I'|]. split; [exact P'|]. lia.
Qed.

Lemma unfinished_ticked sts l : Forall2 (slot_ok fuel) sqs sts -> 0 <= l -> unfinished sqs sts = 0 -> unfinished sqs (ticked l sts) = 0.
Proof.
  intros F HL H. apply (unfinished_mixed l sts O F HL). rewrite mixed_0, map_snd_combine; [exact H|apply (Forall2_length _ _ _ F)].
Qed.
Lemma ticked_ok sts l : Forall2 (slot_ok fuel) sqs sts -> 0 <= l -> Forall2 (slot_ok fuel) sqs (ticked l sts).
Proof.
  intros F HL. unfold SequenceSpec.ticked. induction F as [|q t qs ts So F IH]; cbn [combine map]; constructor; auto.
  destruct (slot_tick_any q t l So HL) as (r & _ & S2 & _). exact S2.
Qed.
Lemma unfinished_played levels : forall sts, Forall2 (slot_ok fuel) sqs sts -> (forall l, In l levels -> 0 <= l) -> unfinished sqs sts = 0 -> unfinished sqs (played fuel sqs levels sts) = 0.
Proof.
  induction levels as [|l levels IH]; intros sts F HL H; cbn [played fold_left]; [exact H|].
  apply IH; [apply ticked_ok; [exact F|apply HL; left; reflexivity]|intros; apply HL; right; auto|apply unfinished_ticked; [exact F|apply HL; left; reflexivity|exact H]].
Qed.

(** The mute event comes with the end of the last sequence. *)
Lemma run_playing levels : forall s, iinv s -> is_phase s <> 0 -> (forall l, In l levels -> 0 <= l) ->
  exists s', irun fuel instr s (map ITick levels) = Ok s' /\ iinv s' /\
    (if (0 <? unfinished sqs (is_states s)) && (unfinished sqs (played fuel sqs levels (is_states s)) =? 0)
     then is_phase s' = 0 /\ is_muted s' = is_muted s + 1
     else is_phase s' = is_phase s /\ is_states s' = played fuel sqs levels (is_states s) /\ is_muted s' = is_muted s).
Proof.
  induction levels as [|l levels IH]; intros s I P HL; cbn [map irun].
  - exists s. split; [reflexivity|]. split; [exact I|]. cbn [played fold_left]. destruct ((0 <? unfinished sqs (is_states s)) && _) eqn:EB; [lia|]. auto.
  - cbn [istep]. assert (HL1 : 0 <= l) by (apply HL; left; reflexivity). assert (HL2 : forall x, In x levels -> 0 <= x) by (intros; apply HL; right; auto).
    destruct (istep_tick s l I HL1) as (s1 & E & I1 & _ & Q). rewrite E. cbn [bind]. specialize (Q P).
    change (played fuel sqs (l :: levels) (is_states s)) with (played fuel sqs levels (ticked l (is_states s))).
    assert (F1 : Forall2 (slot_ok fuel) sqs (ticked l (is_states s))) by (apply ticked_ok; [apply I|exact HL1]).
    destruct (Z.ltb_spec 0 (unfinished sqs (is_states s))) as [U|U]; cbn [andb] in *.
    + destruct (Z.eqb_spec (unfinished sqs (ticked l (is_states s))) 0) as [U1|U1].
      * destruct Q as (P1 & M1). destruct (run_muted levels s1 I1 P1 HL2) as (s' & E' & I' & P' & M'). exists s'. split; [exact E'|]. split; [exact I'|].
        rewrite (unfinished_played levels _ F1 HL2 U1). cbn [Z.eqb]. split; [exact P'|lia].
      * destruct Q as (P1 & S1 & M1). destruct (IH s1 I1 ltac:(congruence) HL2) as (s' & E' & I' & Q'). exists s'. split; [exact E'|]. split; [exact I'|].
        rewrite S1 in Q'. pose proof (unfinished_nonneg sqs (ticked l (is_states s))). replace (0 <? unfinished sqs (ticked l (is_states s))) with true in Q' by lia. cbn [andb] in Q'.
        destruct (unfinished sqs (played fuel sqs levels (ticked l (is_states s))) =? 0); [lia|]. destruct Q' as (Q1 & Q2 & Q3). split; [congruence|]. split; [exact Q2|lia].
    + destruct Q as (P1 & S1 & M1). destruct (IH s1 I1 ltac:(congruence) HL2) as (s' & E' & I' & Q'). exists s'. split; [exact E'|]. split; [exact I'|].
      assert (U0 : unfinished sqs (is_states s) = 0) by (pose proof (unfinished_nonneg sqs (is_states s)); lia).
      rewrite S1 in Q'. rewrite (unfinished_ticked _ l ltac:(apply I) HL1 U0) in Q'. cbn [Z.ltb Z.compare andb] in Q'. destruct Q' as (Q1 & Q2 & Q3). split; [congruence|]. split; [exact Q2|lia].
Qed.

(** *** Setting an instrument *)

Lemma set_value_blank fuel' q v : seq_ok fuel' q -> BKSequenceStateSetValue (Some q) (mk_sstate 0 0 0 0 v 0 0) 0 = Ok sstate_zero.
Proof.
  intros _. unfold BKSequenceStateSetValue. destruct (sq_values q); [reflexivity|]. unfold BKSequenceFuncEnvelopeSetValue, shl. rewrite Z.mul_0_l. reflexivity.
Qed.
Lemma zero_ok q : seq_ok fuel q -> state_ok q sstate_zero.
Proof.
  unfold seq_ok, state_ok. intros Q. destruct (sq_values q) as [vals|phases] eqn:V.
  - right. cbn. lia.
  - destruct Q as (HF & so & sl & W & TT & FS & HB). exact (steady_zero phases q FS).
Qed.
End Instr.

Lemma instrument_set fuel a b c d : (forall q, In (Some q) [a; b; c; d] -> seq_ok fuel q) ->
  exists s0 s, BKInstrumentStateInit = Ok s0 /\ BKInstrumentStateSetInstrument fuel [None; None; None; None] [a; b; c; d] s0 = Ok s /\ iinv fuel [a; b; c; d] s /\
    is_phase s = 1 /\ is_muted s = 0 /\ is_states s = phased fuel [a; b; c; d] 1 [mk_sstate 0 0 0 0 (match a with None => 32767 | _ => 0 end) 0 0; sstate_zero; sstate_zero; sstate_zero].
Proof.
  intros HQ. eexists. 
  set (sts := [mk_sstate 0 0 0 0 (match a with None => 32767 | _ => 0 end) 0 0; sstate_zero; sstate_zero; sstate_zero]).
  set (s1 := mk_istate 0 0 sts 0).
  assert (E1 : BKInstrumentStateSetDefaultValues [a; b; c; d] (mk_istate 0 0 [mk_sstate 0 0 0 0 32767 0 0; sstate_zero; sstate_zero; sstate_zero] 0) = Ok s1).
  { assert (V : forall (x : option sequence) v d, (forall q, x = Some q -> seq_ok fuel q) ->
      BKSequenceStateSetValue x (mk_sstate 0 0 0 0 v 0 0) (match x with Some _ => 0 | None => d end) = Ok (mk_sstate 0 0 0 0 (match x with None => d | _ => 0 end) 0 0)).
    { intros [q|] v d' H; [rewrite (set_value_blank fuel q v (H q eq_refl)); reflexivity|reflexivity]. }
    unfold BKInstrumentStateSetDefaultValues. cbn [set_defaults sequenceDefaultValue is_states].
    rewrite (V a 32767 BK_MAX_VOLUME) by (intros q ->; apply HQ; cbn; auto). cbn [bind].
    change sstate_zero with (mk_sstate 0 0 0 0 0 0 0).
    rewrite (V b 0 0) by (intros q ->; apply HQ; cbn; auto). cbn [bind].
    rewrite (V c 0 0) by (intros q ->; apply HQ; cbn; auto). cbn [bind].
    rewrite (V d 0 0) by (intros q ->; apply HQ; cbn; auto). cbn [bind].
    unfold s1, sts. change BK_MAX_VOLUME with 32767. destruct a, b, c, d; reflexivity. }
  assert (I1 : iinv fuel [a; b; c; d] s1).
  { assert (Z : forall x v, In x [a; b; c; d] -> (x <> None -> v = 0) -> slot_ok fuel x (mk_sstate 0 0 0 0 v 0 0)).
    { intros [q|] v HI HV; [|exact I]. rewrite HV by discriminate. split; [apply HQ; exact HI|]. apply (zero_ok fuel). apply HQ. exact HI. }
    split; [|left; cbn; lia]. unfold slots_ok, s1, sts. cbn [is_states].
    constructor; [apply Z; [cbn; auto|destruct a; congruence]|]. constructor; [apply Z; [cbn; auto|auto]|]. constructor; [apply Z; [cbn; auto|auto]|]. constructor; [apply Z; [cbn; auto|auto]|]. constructor. }
  destruct (istep_phase fuel [a; b; c; d] s1 1 I1 ltac:(lia)) as (s & E2 & I2 & _ & _ & Q & _). destruct (Q eq_refl) as (Q1 & Q2 & Q3).
  exists s. split; [reflexivity|]. split; [|split; [exact I2|split; [exact Q1|split; [exact Q3|exact Q2]]]].
  unfold BKInstrumentStateSetInstrument. 
  match goal with |- bind ?x _ = _ => assert (E0 : x = Ok (mk_istate 0 0 [mk_sstate 0 0 0 0 32767 0 0; sstate_zero; sstate_zero; sstate_zero] 0)) by reflexivity end.
  rewrite E0. cbn [bind]. rewrite E1. cbn [bind]. exact E2.
Qed.

(** ** Constructors give such sequences *)

Lemma simple_seq_ok fuel vals so sl : Z.of_nat (length vals) < 2 ^ 28 -> seq_ok fuel (BKSequenceFuncSimpleCreate vals so sl).
Proof. intros H. destruct (simple_create_wf vals so sl H) as (V & W). unfold seq_ok. rewrite V. eauto. Qed.
Lemma envelope_seq_ok fuel phases so sl sq code : Z.of_nat (length phases) < 2 ^ 28 -> (2 * length phases < fuel)%nat ->
  (forall p, In p phases -> Z.abs (ph_value p) < 2 ^ 30 /\ 0 <= ph_steps p < 2 ^ 31) ->
  BKSequenceFuncEnvelopeCreate phases so sl = Ok (Some sq, code) -> seq_ok fuel sq.
Proof.
  intros HL HF HB E. destruct (envelope_create_wf phases so sl sq code HL E) as (_ & V & W & TT & F).
  destruct (frac_shift_bound phases ltac:(intros p Hp; apply HB; exact Hp)) as (fs & F' & FS & FB). assert (fs = sq_fracShift sq) by congruence. subst fs.
  unfold seq_ok. rewrite V. split; [exact HF|]. eexists _, _. split; [exact W|]. split; [exact TT|]. split; [exact FS|].
  intros p Hp. split; [apply FB; exact Hp|apply HB; exact Hp].
Qed.
