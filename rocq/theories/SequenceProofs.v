(** Proofs about value sequences. *)
From Verif Require Import CIntFacts SequenceModel SequenceSpec.
Ltac Zify.zify_post_hook ::= idtac.

Lemma attack_index_0 so sl : (so + sl = 0 -> so = 0)%nat -> attack_index so sl 0 = O.
Proof. intros H. unfold attack_index. destruct (Nat.ltb_spec 0 (so + sl)); [reflexivity|]. assert (so = 0)%nat by lia. subst. rewrite Nat.sub_diag, Nat.mod_0_l by lia. reflexivity. Qed.

(** The next index: one more, or back to the start of the sustain part. *)
Lemma attack_index_S so sl i :
  attack_index so sl (S i) = if (S (attack_index so sl i) <? so + sl)%nat then S (attack_index so sl i) else
    (if (S i <? so + sl)%nat then S i else so).
Proof.
  unfold attack_index. set (m := Nat.max 1 sl).
  destruct (Nat.ltb_spec (S i) (so + sl)) as [H|H].
  - destruct (Nat.ltb_spec i (so + sl)); [|lia]. destruct (Nat.ltb_spec (S i) (so + sl)); [reflexivity|lia].
  - destruct (Nat.ltb_spec i (so + sl)) as [H1|H1].
    + destruct (Nat.ltb_spec (S i) (so + sl)); [lia|].
      assert (E : (S i - so = sl)%nat \/ (S i <= so)%nat) by lia. destruct E as [E|E].
      * rewrite E. destruct sl; [cbn; lia|]. unfold m. replace (Nat.max 1 (S sl)) with (S sl) by lia. rewrite Nat.mod_same by lia. lia.
      * replace (S i - so)%nat with O by lia. rewrite Nat.mod_0_l by (unfold m; lia). lia.
    + destruct sl as [|sl'].
      * unfold m. cbn [Nat.max]. rewrite !Nat.mod_1_r. destruct (Nat.ltb_spec (S (so + 0)) (so + 0)); lia.
      * replace m with (S sl') in * by (unfold m; lia).
        replace (S i - so)%nat with (S (i - so)) by lia.
        pose proof (Nat.mod_upper_bound (i - so) (S sl') ltac:(lia)) as B.
        pose proof (Nat.div_mod (i - so) (S sl') ltac:(lia)) as D.
        destruct (Nat.ltb_spec (S (so + (i - so) mod S sl')) (so + S sl')) as [L|L].
        -- enough (E : ((S (i - so)) mod S sl' = S ((i - so) mod S sl'))%nat) by lia.
           symmetry. apply Nat.mod_unique with (q := ((i - so) / S sl')%nat); lia.
        -- enough (E : ((S (i - so)) mod S sl')%nat = O) by lia.
           symmetry. apply Nat.mod_unique with (q := S ((i - so) / S sl')%nat); lia.
Qed.

Lemma attack_index_bound so sl len i : (so + sl <= len)%nat -> (so < len)%nat -> (attack_index so sl i < len)%nat.
Proof.
  intros H H1. unfold attack_index. destruct (Nat.ltb_spec i (so + sl)); [lia|].
  pose proof (Nat.mod_upper_bound (i - so) (Nat.max 1 sl) ltac:(lia)). lia.
Qed.

(** The next visited offset as computed by the code. *)
Definition wrap (so send o : Z) : Z := if o >=? send then so else o.
Lemma attack_index_wrap so sl i :
  Z.of_nat (attack_index so sl (S i)) = wrap (Z.of_nat so) (Z.of_nat (so + sl)) (Z.of_nat (attack_index so sl i) + 1).
Proof.
  rewrite attack_index_S. unfold wrap.
  destruct (Nat.ltb_spec (S (attack_index so sl i)) (so + sl)) as [H|H].
  - replace (Z.of_nat (attack_index so sl i) + 1 >=? Z.of_nat (so + sl)) with false by lia. lia.
  - replace (Z.of_nat (attack_index so sl i) + 1 >=? Z.of_nat (so + sl)) with true by lia.
    destruct (Nat.ltb_spec (S i) (so + sl)) as [H1|H1]; [|reflexivity].
    exfalso. unfold attack_index in H. destruct (Nat.ltb_spec i (so + sl)); lia.
Qed.
Lemma attack_index_0_wrap so sl : Z.of_nat (attack_index so sl 0) = wrap (Z.of_nat so) (Z.of_nat (so + sl)) 0.
Proof.
  unfold attack_index, wrap. destruct (Nat.ltb_spec 0 (so + sl)) as [H|H].
  - replace (0 >=? Z.of_nat (so + sl)) with false by lia. reflexivity.
  - replace (0 >=? Z.of_nat (so + sl)) with true by lia. cbn [Nat.sub]. rewrite Nat.mod_0_l by lia. lia.
Qed.

(** ** The constructors *)

Definition seq_wf (sq : sequence) (n so sl : nat) : Prop :=
  sq_length sq = Z.of_nat n /\ sq_sustainOffset sq = Z.of_nat so /\ sq_sustainLength sq = Z.of_nat sl /\ (so + sl <= n)%nat /\ Z.of_nat n < 2 ^ 28.

(** Sustain range after clamping to the length; the arguments are converted to
    unsigned, negative ones become large. *)
Definition clamp_so (n : nat) (so : Z) : nat := Z.to_nat (Z.min (u32 so) (Z.of_nat n)).
Definition clamp_sl (n : nat) (so sl : Z) : nat := Z.to_nat (Z.min (u32 sl) (Z.of_nat (n - clamp_so n so))).

Lemma clamp_wf n so sl : Z.of_nat n < 2 ^ 28 ->
  let so' := BKClamp (u32 so) 0 (Z.of_nat n) in
  so' = Z.of_nat (clamp_so n so) /\ BKClamp (u32 sl) 0 (u32 (Z.of_nat n - so')) = Z.of_nat (clamp_sl n so sl) /\
  (clamp_so n so + clamp_sl n so sl <= n)%nat.
Proof.
  intros Hn so'. pose proof (u32_range so). pose proof (u32_range sl).
  assert (E : so' = Z.of_nat (clamp_so n so)).
  { unfold so', BKClamp, clamp_so. replace (u32 so <? 0) with false by lia. destruct (u32 so >? Z.of_nat n) eqn:E; lia. }
  assert (L : (clamp_so n so <= n)%nat) by (unfold clamp_so; lia).
  split; [exact E|]. rewrite E, (u32_id (Z.of_nat n - _)) by lia. split.
  - unfold BKClamp, clamp_sl. replace (u32 sl <? 0) with false by lia. destruct (u32 sl >? _) eqn:E1; lia.
  - unfold clamp_sl. lia.
Qed.

Lemma simple_create_wf vals so sl : Z.of_nat (length vals) < 2 ^ 28 ->
  sq_values (BKSequenceFuncSimpleCreate vals so sl) = VSimple vals /\
  seq_wf (BKSequenceFuncSimpleCreate vals so sl) (length vals) (clamp_so (length vals) so) (clamp_sl (length vals) so sl).
Proof.
  intros Hn. destruct (clamp_wf (length vals) so sl Hn) as (E1 & E2 & E3). unfold BKSequenceFuncSimpleCreate, seq_wf. cbn.
  split; [reflexivity|]. split; [reflexivity|]. split; [exact E1|]. split; [exact E2|]. split; [exact E3|exact Hn].
Qed.

(** ** Steps of value sequences *)

Lemma nth_error_aget {A} (l : list A) (n : nat) a : nth_error l n = Some a -> aget l (Z.of_nat n) = Ok a.
Proof.
  intros E. unfold aget. assert (n < length l)%nat by (apply nth_error_Some; congruence).
  replace ((0 <=? Z.of_nat n) && (Z.of_nat n <? Z.of_nat (length l))) with true by lia. rewrite Nat2Z.id, E. reflexivity.
Qed.
Lemma nth_error_aget' {A} (l : list A) (o : Z) a : 0 <= o -> nth_error l (Z.to_nat o) = Some a -> aget l o = Ok a.
Proof. intros H E. rewrite <- (Z2Nat.id o H). apply nth_error_aget. exact E. Qed.

Section Simple.
Context (vals : list Z) (sq : sequence) (so sl : nat).
Hypothesis W : seq_wf sq (length vals) so sl.
Hypothesis V : sq_values sq = VSimple vals.
Let len := length vals.

Lemma sustain_end : chk32 (sq_sustainOffset sq + sq_sustainLength sq) = Ok (Z.of_nat (so + sl)).
Proof. destruct W as (_ & -> & -> & H & H1). rewrite chk32_ok by lia. f_equal. lia. Qed.

(** One step in attack phase, from raw offset [o]. *)
Lemma simple_step_attack fuel st level o : st_phase st = 1 -> st_offset st = o -> 0 <= o <= Z.of_nat len -> 1 <= level ->
  let w := wrap (Z.of_nat so) (Z.of_nat (so + sl)) o in
  exists st' r, BKSequenceStateStep fuel (Some sq) st level = Ok (st', r) /\ st_phase st' = 1 /\
    match nth_error vals (Z.to_nat w) with
    | Some v => st_value st' = v /\ st_offset st' = w + 1 /\ r = if o >=? Z.of_nat (so + sl) then 2 else 1
    | None => st_value st' = st_value st /\ st_offset st' = BK_INT_MAX /\ r = 4
    end.
Proof.
  intros HP HO HR HL w. pose proof W as (W1 & W2 & W3 & W4 & W5). fold len in W1, W4, W5.
  unfold BKSequenceStateStep. rewrite V. unfold BKSequenceFuncSimpleStep, BK_SEQUENCE_STEP_DIVIDED, BK_INT_MAX.
  replace (level <? 1) with false by lia. replace (st_offset st =? 2147483647) with false by lia.
  rewrite sustain_end. cbn [bind]. rewrite HP. change (1 =? BK_SEQUENCE_PHASE_ATTACK) with true. cbn [andb].
  rewrite HO. rewrite W2, W1.
  assert (Hw : 0 <= w <= Z.of_nat len) by (unfold w, wrap; destruct (o >=? _); lia).
  unfold w, wrap in *. destruct (o >=? Z.of_nat (so + sl)) eqn:EC; cbn [st_offset st_set_offset].
  - destruct (Z.ltb_spec (Z.of_nat so) (Z.of_nat len)) as [L|L].
    + assert (I : (so < length vals)%nat) by (fold len; lia). destruct (nth_error vals (Z.to_nat (Z.of_nat so))) as [v|] eqn:EN;
        rewrite Nat2Z.id in EN; [|apply nth_error_None in EN; lia].
      rewrite (nth_error_aget _ _ _ EN). cbn [bind]. rewrite chk32_ok by lia. cbn [bind]. eexists _, _. split; [reflexivity|]. cbn. auto.
    + rewrite Nat2Z.id. rewrite (proj2 (nth_error_None vals so)) by (fold len; lia). eexists _, _. split; [reflexivity|]. cbn. auto.
  - destruct (Z.ltb_spec (st_offset st) (Z.of_nat len)) as [L|L].
    + rewrite HO in L. assert (I : (Z.to_nat o < length vals)%nat) by (fold len; lia). destruct (nth_error vals (Z.to_nat o)) as [v|] eqn:EN;
        [|apply nth_error_None in EN; lia].
      rewrite HO. rewrite (nth_error_aget' _ o _ ltac:(lia) EN). cbn [bind]. rewrite chk32_ok by lia. cbn [bind].
      eexists _, _. split; [reflexivity|]. cbn. auto.
    + rewrite (proj2 (nth_error_None vals (Z.to_nat o))) by (fold len; lia). eexists _, _. split; [reflexivity|]. cbn. auto.
Qed.

(** One step in another phase. *)
Lemma simple_step_other fuel st level o : st_phase st <> 1 -> st_offset st = o -> 0 <= o <= Z.of_nat len -> 1 <= level ->
  exists st' r, BKSequenceStateStep fuel (Some sq) st level = Ok (st', r) /\ st_phase st' = st_phase st /\
    match nth_error vals (Z.to_nat o) with
    | Some v => st_value st' = v /\ st_offset st' = o + 1 /\ r = 1
    | None => st_value st' = st_value st /\ st_offset st' = BK_INT_MAX /\ r = 4
    end.
Proof.
  intros HP HO HR HL. pose proof W as (W1 & W2 & W3 & W4 & W5). fold len in W1, W4, W5.
  unfold BKSequenceStateStep. rewrite V. unfold BKSequenceFuncSimpleStep, BK_SEQUENCE_STEP_DIVIDED, BK_INT_MAX.
  replace (level <? 1) with false by lia. replace (st_offset st =? 2147483647) with false by lia.
  rewrite sustain_end. cbn [bind]. unfold BK_SEQUENCE_PHASE_ATTACK. replace (st_phase st =? 1) with false by lia. cbn [andb].
  rewrite HO, W1.
  destruct (Z.ltb_spec o (Z.of_nat len)) as [L|L].
  - assert (I : (Z.to_nat o < length vals)%nat) by (fold len; lia). destruct (nth_error vals (Z.to_nat o)) as [v|] eqn:EN;
      [|apply nth_error_None in EN; lia].
    rewrite (nth_error_aget' _ o _ ltac:(lia) EN). cbn [bind]. rewrite chk32_ok by lia. cbn [bind].
    eexists _, _. split; [reflexivity|]. cbn. auto.
  - rewrite (proj2 (nth_error_None vals (Z.to_nat o))) by (fold len; lia). eexists _, _. split; [reflexivity|]. cbn. auto.
Qed.

Lemma simple_step_done fuel st level : st_offset st = BK_INT_MAX -> BKSequenceStateStep fuel (Some sq) st level = Ok (st, 0).
Proof.
  intros HO. unfold BKSequenceStateStep. rewrite V. unfold BKSequenceFuncSimpleStep. destruct (level <? _); [reflexivity|].
  rewrite HO, Z.eqb_refl. reflexivity.
Qed.
Lemma simple_step_undivided fuel st level : level < 1 -> BKSequenceStateStep fuel (Some sq) st level = Ok (st, 0).
Proof.
  intros HO. unfold BKSequenceStateStep. rewrite V. unfold BKSequenceFuncSimpleStep, BK_SEQUENCE_STEP_DIVIDED. replace (level <? 1) with true by lia. reflexivity.
Qed.

(** Phases. *)
Lemma simple_phase fuel st p o : (p = 0 /\ o = len) \/ (p = 1 /\ o = O) \/ (p = 2 /\ o = (so + sl)%nat) ->
  exists st', BKSequenceStateSetPhase fuel (Some sq) st p = Ok (st', match nth_error vals o with Some _ => 0 | None => 4 end) /\ st_phase st' = p /\
    match nth_error vals o with
    | Some v => st_value st' = v /\ st_offset st' = Z.of_nat o
    | None => st_value st' = st_value st /\ st_offset st' = BK_INT_MAX
    end.
Proof.
  intros HP. pose proof W as (W1 & W2 & W3 & W4 & W5). fold len in W1, W4, W5.
  unfold BKSequenceStateSetPhase. rewrite V. unfold BKSequenceFuncSimpleSetPhase.
  set (go := fun offset : Z => if offset <? sq_length sq then
      let* v := aget vals offset in
      Ok (st_set_phase (st_set_value (st_set_offset st offset) v) p, BK_SEQUENCE_RETURN_NONE)
    else Ok (st_set_phase (st_set_offset st BK_INT_MAX) p, BK_SEQUENCE_RETURN_FINISH)).
  cbv zeta.
  assert (G : forall o, 0 <= o <= Z.of_nat len -> exists st', go o = Ok (st', match nth_error vals (Z.to_nat o) with Some _ => 0 | None => 4 end) /\ st_phase st' = p /\
    match nth_error vals (Z.to_nat o) with
    | Some v => st_value st' = v /\ st_offset st' = o
    | None => st_value st' = st_value st /\ st_offset st' = BK_INT_MAX
    end).
  { clear HP o. intros o Ho. unfold go. cbv beta. rewrite W1. destruct (Z.ltb_spec o (Z.of_nat len)) as [L|L].
    - destruct (nth_error vals (Z.to_nat o)) as [v|] eqn:EN; [|apply nth_error_None in EN; fold len in EN; lia].
      rewrite (nth_error_aget' _ o _ ltac:(lia) EN). cbn [bind]. eexists. split; [reflexivity|]. cbn. auto.
    - rewrite (proj2 (nth_error_None vals (Z.to_nat o))) by (fold len; lia). eexists. split; [reflexivity|]. cbn. auto. }
  destruct HP as [(-> & ->)|[(-> & ->)|(-> & ->)]].
  - cbn [Z.eqb BK_SEQUENCE_PHASE_MUTE]. rewrite W1. specialize (G (Z.of_nat len) ltac:(lia)). rewrite Nat2Z.id in G. unfold go in G. rewrite W1 in G. exact G.
  - change (1 =? BK_SEQUENCE_PHASE_MUTE) with false. change (1 =? BK_SEQUENCE_PHASE_ATTACK) with true. cbv iota. exact (G 0 ltac:(lia)).
  - change (2 =? BK_SEQUENCE_PHASE_MUTE) with false. change (2 =? BK_SEQUENCE_PHASE_ATTACK) with false. change (2 =? BK_SEQUENCE_PHASE_RELEASE) with true. cbv iota.
    rewrite sustain_end. cbn [bind]. specialize (G (Z.of_nat (so + sl)) ltac:(lia)). rewrite Nat2Z.id in G. exact G.
Qed.

(** Any number of divided steps after the attack. *)
Definition attack_code (k : nat) : Z :=
  match nth_error vals (attack_index so sl k) with
  | Some _ => if (so + sl <=? k)%nat && ((k - so) mod Nat.max 1 sl =? 0)%nat then 2 else 1
  | None => if (k =? len)%nat then 4 else 0
  end.
Definition attack_value (w : Z) (k : nat) : Z :=
  match nth_error vals (attack_index so sl k) with Some v => v | None => last vals w end.

(** State before the [k]-th step. *)
Definition attack_state (w : Z) (k : nat) (st : sstate) : Prop :=
  st_phase st = 1 /\
  ((exists o, st_offset st = o /\ 0 <= o <= Z.of_nat len /\ wrap (Z.of_nat so) (Z.of_nat (so + sl)) o = Z.of_nat (attack_index so sl k) /\
      (o >=? Z.of_nat (so + sl)) = ((so + sl <=? k)%nat && ((k - so) mod Nat.max 1 sl =? 0)%nat) /\
      ((so < len)%nat \/ (k <= len)%nat /\ (k = len -> st_value st = last vals w))) \/
   (st_offset st = BK_INT_MAX /\ so = len /\ (len < k)%nat /\ st_value st = last vals w)).

Lemma wrap_repeat k : (Z.of_nat (attack_index so sl k) + 1 >=? Z.of_nat (so + sl)) = ((so + sl <=? S k)%nat && ((S k - so) mod Nat.max 1 sl =? 0)%nat).
Proof.
  unfold attack_index. set (m := Nat.max 1 sl).
  destruct (Nat.leb_spec (so + sl) (S k)) as [H|H]; cbn [andb].
  2:{ destruct (Nat.ltb_spec k (so + sl)); [|lia]. lia. }
  destruct (Nat.ltb_spec k (so + sl)) as [H1|H1].
  - assert (E : (S k - so = sl)%nat \/ (S k <= so)%nat) by lia.
    replace (Z.of_nat k + 1 >=? Z.of_nat (so + sl)) with true by lia. symmetry. apply Nat.eqb_eq.
    destruct E as [E|E]; [rewrite E|replace (S k - so)%nat with O by lia; apply Nat.mod_0_l; unfold m; lia].
    destruct sl as [|sl']; [reflexivity|]. unfold m. replace (Nat.max 1 (S sl')) with (S sl') by lia. apply Nat.mod_same. lia.
  - destruct sl as [|sl'].
    + unfold m. cbn [Nat.max]. rewrite !Nat.mod_1_r. cbn [Nat.eqb]. lia.
    + replace m with (S sl') in * by (unfold m; lia). replace (S k - so)%nat with (S (k - so)) by lia.
      pose proof (Nat.mod_upper_bound (k - so) (S sl') ltac:(lia)) as B.
      pose proof (Nat.div_mod (k - so) (S sl') ltac:(lia)) as D.
      destruct (Nat.eq_dec ((k - so) mod S sl') sl') as [E|E].
      * replace (Z.of_nat (so + (k - so) mod S sl') + 1 >=? Z.of_nat (so + S sl')) with true by lia. symmetry. apply Nat.eqb_eq.
        symmetry. apply Nat.mod_unique with (q := S ((k - so) / S sl')%nat); lia.
      * replace (Z.of_nat (so + (k - so) mod S sl') + 1 >=? Z.of_nat (so + S sl')) with false by lia. symmetry. apply Nat.eqb_neq.
        assert (E1 : ((S (k - so)) mod S sl' = S ((k - so) mod S sl'))%nat); [|lia].
        symmetry. apply Nat.mod_unique with (q := ((k - so) / S sl')%nat); lia.
Qed.

Lemma nth_last (l : list Z) d v : nth_error l (length l - 1) = Some v -> last l d = v.
Proof.
  intros E. destruct l as [|x l] using rev_ind; [discriminate|]. rewrite last_last. rewrite app_length in E. cbn in E.
  replace (length l + 1 - 1)%nat with (length l) in E by lia. rewrite nth_error_app2 in E by lia. rewrite Nat.sub_diag in E. cbn in E. congruence.
Qed.

Lemma attack_step w k st fuel level : attack_state w k st -> 1 <= level ->
  exists st', BKSequenceStateStep fuel (Some sq) st level = Ok (st', attack_code k) /\ attack_state w (S k) st' /\ st_value st' = attack_value w k.
Proof.
  intros (HP & [(o & HO & HR & HW & HC & HL)|(HO & ES & HK & HV)]) Hl.
  - pose proof W as (W1 & W2 & W3 & W4 & W5). fold len in W1, W4, W5.
    destruct (simple_step_attack fuel st level o HP HO HR Hl) as (st' & r & E & P' & C). rewrite HW, Nat2Z.id in C.
    exists st'. unfold attack_code, attack_value. destruct (nth_error vals (attack_index so sl k)) as [v|] eqn:EN.
    + destruct C as (C1 & C2 & C3). split; [rewrite E; f_equal; f_equal; rewrite C3, HC; reflexivity|]. split; [|exact C1]. split; [exact P'|].
      assert (B : (attack_index so sl k < len)%nat) by (apply nth_error_Some; congruence).
      left. exists (Z.of_nat (attack_index so sl k) + 1). split; [exact C2|]. split; [lia|]. split; [symmetry; apply attack_index_wrap|].
      split; [apply wrap_repeat|]. destruct HL as [HL|(HL & _)]; [left; exact HL|].
      destruct (Nat.eq_dec so len) as [ES|ES]; [|left; lia]. right.
      assert (k < len)%nat. { destruct (Nat.eq_dec k len) as [->|]; [|lia]. exfalso. revert EN. unfold attack_index.
        destruct (Nat.ltb_spec len (so + sl)); [lia|]. rewrite ES, Nat.sub_diag, Nat.mod_0_l by lia. replace (len + 0)%nat with (length vals) by (unfold len; lia).
        intros EN. rewrite (proj2 (nth_error_None vals _)) in EN by lia. discriminate. }
      split; [lia|]. intros EK. rewrite C1. symmetry. apply nth_last. fold len. replace (len - 1)%nat with k by lia.
      unfold attack_index in EN. destruct (Nat.ltb_spec k (so + sl)); [exact EN|lia].
    + destruct C as (C1 & C2 & C3). apply nth_error_None in EN. fold len in EN.
      assert (ES : so = len). { destruct (Nat.eq_dec so len) as [|N]; [assumption|]. pose proof (attack_index_bound so sl len k W4 ltac:(lia)). lia. }
      destruct HL as [HL|(HL1 & HL2)]; [lia|].
      assert (EK : k = len). { unfold attack_index in EN. destruct (Nat.ltb_spec k (so + sl)); lia. }
      split; [rewrite E, C3, EK, Nat.eqb_refl; reflexivity|]. split; [|rewrite C1; auto]. split; [exact P'|]. right. rewrite C1. repeat split; auto; lia.
  - exists st. rewrite simple_step_done by exact HO. unfold attack_code, attack_value.
    assert (EN : nth_error vals (attack_index so sl k) = None).
    { apply nth_error_None. fold len. unfold attack_index. destruct (Nat.ltb_spec k (so + sl)); lia. }
    rewrite EN. split; [replace (k =? len)%nat with false by (symmetry; apply Nat.eqb_neq; lia); reflexivity|].
    split; [|exact HV]. split; [exact HP|]. right. repeat split; auto; lia.
Qed.

Lemma attack_begin fuel st : (0 < len)%nat -> exists st', BKSequenceStateSetPhase fuel (Some sq) st 1 = Ok (st', 0) /\
  attack_state (hd 0 vals) 0 st' /\ st_value st' = hd 0 vals.
Proof.
  intros HL. pose proof W as (W1 & W2 & W3 & W4 & W5). fold len in W1, W4, W5.
  destruct (simple_phase fuel st 1 0 ltac:(auto)) as (st' & E & P & C).
  destruct (nth_error vals 0) as [v|] eqn:EN; [|apply nth_error_None in EN; unfold len in HL; lia].
  destruct C as (C1 & C2). exists st'. split; [exact E|]. assert (EV : hd 0 vals = v) by (destruct vals; cbn in *; congruence). split; [|congruence].
  split; [exact P|]. left. exists 0. split; [exact C2|]. split; [lia|]. split; [symmetry; apply attack_index_0_wrap|]. split.
  - destruct (Nat.leb_spec (so + sl) 0) as [H|H]; cbn [andb]; [|lia]. cbn [Nat.sub]. rewrite Nat.mod_0_l by lia. cbn [Nat.eqb]. lia.
  - destruct (Nat.eq_dec so len); [right; split; lia|left; lia].
Qed.

Lemma attack_run w k st fuel : attack_state w k st -> forall n, exists st',
  srun fuel sq st (repeat (SStep 1) n) = Ok (st', map (fun i => (attack_value w i, attack_code i)) (seq k n)) /\ attack_state w (k + n) st'.
Proof.
  intros A n. revert k st A. induction n as [|n IH]; intros k st A; cbn [repeat srun seq map].
  - exists st. rewrite Nat.add_0_r. auto.
  - unfold sstep at 1. destruct (attack_step w k st fuel 1 A ltac:(lia)) as (st1 & E1 & A1 & V1). rewrite E1. cbn [bind].
    destruct (IH (S k) st1 A1) as (st2 & E2 & A2). rewrite E2. cbn [bind]. exists st2. rewrite V1. replace (k + S n)%nat with (S k + n)%nat by lia. auto.
Qed.

(** Release: the values behind the sustain part, from any state. *)
Definition release_value (w : Z) (k : nat) : Z :=
  match nth_error vals (so + sl + k) with Some v => v | None => if (so + sl =? len)%nat then w else last vals w end.
Definition release_code (k : nat) : Z :=
  match nth_error vals (so + sl + k) with Some _ => 1 | None => if (so + sl + k =? len)%nat && negb (so + sl =? len)%nat then 4 else 0 end.
Definition release_state (w : Z) (k : nat) (st : sstate) : Prop :=
  st_phase st = 2 /\
  ((st_offset st = Z.of_nat (so + sl + k) /\ (so + sl + k <= len)%nat /\ (so + sl < len)%nat /\ (so + sl + k = len -> st_value st = last vals w)%nat) \/
   (st_offset st = BK_INT_MAX /\ (len <= so + sl + k)%nat /\ ((so + sl < len)%nat -> (len < so + sl + k)%nat) /\ st_value st = if (so + sl =? len)%nat then w else last vals w)).

Lemma release_begin fuel st : exists st', BKSequenceStateSetPhase fuel (Some sq) st 2 = Ok (st', if (so + sl =? len)%nat then 4 else 0) /\
  release_state (st_value st) 0 st' /\ st_value st' = release_value (st_value st) 0.
Proof.
  pose proof W as (W1 & W2 & W3 & W4 & W5). fold len in W1, W4, W5.
  destruct (simple_phase fuel st 2 (so + sl) ltac:(auto)) as (st' & E & P & C). exists st'. unfold release_value. rewrite Nat.add_0_r.
  destruct (nth_error vals (so + sl)) as [v|] eqn:EN.
  - assert (so + sl < len)%nat by (apply nth_error_Some; congruence). replace (so + sl =? len)%nat with false by (symmetry; apply Nat.eqb_neq; lia).
    split; [exact E|]. destruct C as (C1 & C2). split; [|exact C1]. split; [exact P|]. left. rewrite Nat.add_0_r. repeat split; auto; lia.
  - apply nth_error_None in EN. fold len in EN. assert (ES : (so + sl = len)%nat) by lia. rewrite ES, Nat.eqb_refl. split; [exact E|].
    destruct C as (C1 & C2). split; [|exact C1]. split; [exact P|]. right. rewrite ES, Nat.eqb_refl. repeat split; auto; lia.
Qed.

Lemma release_step w k st fuel level : release_state w k st -> 1 <= level ->
  exists st', BKSequenceStateStep fuel (Some sq) st level = Ok (st', release_code k) /\ release_state w (S k) st' /\ st_value st' = release_value w k.
Proof.
  pose proof W as (W1 & W2 & W3 & W4 & W5). fold len in W1, W4, W5.
  intros (HP & [(HO & HR & HS & HV)|(HO & HK & HS & HV)]) Hl; unfold release_code, release_value.
  - destruct (simple_step_other fuel st level _ ltac:(rewrite HP; lia) HO ltac:(lia) Hl) as (st' & r & E & P' & C). rewrite Nat2Z.id in C. exists st'.
    replace (so + sl =? len)%nat with false by (symmetry; apply Nat.eqb_neq; lia). cbn [negb]. rewrite andb_true_r.
    destruct (nth_error vals (so + sl + k)) as [v|] eqn:EN.
    + destruct C as (C1 & C2 & ->). split; [exact E|]. split; [|exact C1]. split; [congruence|].
      assert (so + sl + k < len)%nat by (apply nth_error_Some; congruence). left. split; [lia|]. split; [lia|]. split; [exact HS|].
      intros EL. rewrite C1. symmetry. apply nth_last. fold len. replace (len - 1)%nat with (so + sl + k)%nat by lia. exact EN.
    + apply nth_error_None in EN. fold len in EN. assert (EL : (so + sl + k = len)%nat) by lia. destruct C as (C1 & C2 & ->). rewrite EL, Nat.eqb_refl.
      split; [exact E|]. rewrite C1. split; [|apply HV; exact EL]. split; [congruence|]. right.
      replace (so + sl =? len)%nat with false by (symmetry; apply Nat.eqb_neq; lia). rewrite C1. repeat split; auto; lia.
  - exists st. rewrite simple_step_done by exact HO. rewrite (proj2 (nth_error_None vals _)) by (fold len; lia). split.
    + destruct (Nat.eqb_spec (so + sl) len); [rewrite andb_false_r; reflexivity|].
      replace (so + sl + k =? len)%nat with false by (symmetry; apply Nat.eqb_neq; lia). reflexivity.
    + split; [|exact HV]. split; [exact HP|]. right. repeat split; auto; lia.
Qed.

Lemma release_run w k st fuel : release_state w k st -> forall n, exists st',
  srun fuel sq st (repeat (SStep 1) n) = Ok (st', map (fun i => (release_value w i, release_code i)) (seq k n)) /\ release_state w (k + n) st'.
Proof.
  intros A n. revert k st A. induction n as [|n IH]; intros k st A; cbn [repeat srun seq map].
  - exists st. rewrite Nat.add_0_r. auto.
  - unfold sstep at 1. destruct (release_step w k st fuel 1 A ltac:(lia)) as (st1 & E1 & A1 & V1). rewrite E1. cbn [bind].
    destruct (IH (S k) st1 A1) as (st2 & E2 & A2). rewrite E2. cbn [bind]. exists st2. rewrite V1. replace (k + S n)%nat with (S k + n)%nat by lia. auto.
Qed.

(** Any history of calls is defined. *)
Definition simple_inv (st : sstate) : Prop := st_offset st = BK_INT_MAX \/ 0 <= st_offset st <= Z.of_nat len.
Lemma simple_safe_step fuel st o : simple_inv st -> exists st' r, sstep fuel sq st o = Ok (st', r) /\ simple_inv st'.
Proof.
  pose proof W as (W1 & W2 & W3 & W4 & W5). fold len in W1, W4, W5.
  intros I. destruct o as [p|l|v]; cbn [sstep].
  - assert (D : (p = 0 \/ p = 1 \/ p = 2) \/ (p <> 0 /\ p <> 1 /\ p <> 2)) by lia. destruct D as [D|D].
    + assert (HX : exists o, ((p = 0 /\ o = len) \/ (p = 1 /\ o = O) \/ (p = 2 /\ o = (so + sl)%nat)) /\ (o <= len)%nat).
      { destruct D as [->|[->| ->]]; [exists len|exists O|exists (so + sl)%nat]; split; auto; lia. }
      destruct HX as (o & HX & HL). destruct (simple_phase fuel st p o HX) as (st' & E & _ & C). eexists _, _. split; [exact E|].
      unfold simple_inv. destruct (nth_error vals o); destruct C as (_ & ->); [right; lia|left; reflexivity].
    + unfold BKSequenceStateSetPhase. rewrite V. unfold BKSequenceFuncSimpleSetPhase, BK_SEQUENCE_PHASE_MUTE, BK_SEQUENCE_PHASE_ATTACK, BK_SEQUENCE_PHASE_RELEASE.
      replace (p =? 0) with false by lia. replace (p =? 1) with false by lia. replace (p =? 2) with false by lia. eexists _, _. split; [reflexivity|exact I].
  - destruct (Z.ltb_spec l 1) as [L|L]; [rewrite simple_step_undivided by exact L; eexists _, _; split; [reflexivity|exact I]|].
    destruct I as [I|I]; [rewrite simple_step_done by exact I; eexists _, _; split; [reflexivity|left; exact I]|].
    destruct (Z.eq_dec (st_phase st) 1) as [HP|HP].
    + destruct (simple_step_attack fuel st l _ HP eq_refl I L) as (st' & r & E & _ & C). eexists _, _. split; [exact E|]. unfold simple_inv.
      set (w := wrap _ _ _) in *. assert (0 <= w) by (unfold w, wrap; destruct (_ >=? _); lia).
      destruct (nth_error vals (Z.to_nat w)) eqn:EN; destruct C as (_ & -> & _); [|auto].
      assert (Z.to_nat w < len)%nat by (apply nth_error_Some; congruence). lia.
    + destruct (simple_step_other fuel st l _ HP eq_refl I L) as (st' & r & E & _ & C). eexists _, _. split; [exact E|]. unfold simple_inv.
      destruct (nth_error vals (Z.to_nat (st_offset st))) eqn:EN; destruct C as (_ & -> & _); [|auto].
      assert (Z.to_nat (st_offset st) < len)%nat by (apply nth_error_Some; congruence). lia.
  - unfold BKSequenceStateSetValue. rewrite V. cbn [bind]. eexists _, _. split; [reflexivity|]. exact I.
Qed.
Lemma simple_safe fuel ops : forall st, simple_inv st -> exists st' l, srun fuel sq st ops = Ok (st', l) /\ simple_inv st'.
Proof.
  induction ops as [|o ops IH]; intros st I; cbn [srun]; [eexists _, _; split; [reflexivity|exact I]|].
  destruct (simple_safe_step fuel st o I) as (st1 & r & E & I1). rewrite E. cbn [bind].
  destruct (IH st1 I1) as (st2 & l & E2 & I2). rewrite E2. cbn [bind]. eexists _, _. split; [reflexivity|exact I2].
Qed.
End Simple.
