(** Ticks of a track which plays an instrument. *)
From Coq Require Import Znumtheory.
From Verif Require Import CInt CIntFacts DataModel UnitModel UnitSpec UnitProofs UnitProofs2 UnitProofs5 UnitInv UnitInv2 UnitInv3 UnitCount
  InterpModel InterpProofs SlideIn ToneModel PropertiesTone SequenceModel SequenceSpec SequenceProofs InstrumentProofs InstrBounds
  TrackModel TrackSpec TrackInv TrackProofs TrackProofs2 TrackProofs3 TrackProofs4 TrackProofs5 TrackProofs6 TrackVolume TrackPlay TrackTicks TrackNote TrackInstr TrackInstr2.
Ltac Zify.zify_post_hook ::= idtac.
Local Notation ticked := SequenceSpec.ticked.

(** Ticks [j], ..., [j + k - 1], of which every [d]-th is divided. *)
Definition beats (d : Z) (j k : nat) : list Z := map (fun i => if Z.of_nat i mod d =? 0 then 1 else 0) (seq j k).
Definition heard (t : track) : Prop := loud t /\ in_tune t /\ dutied t.

Lemma div_count d j : 1 <= d < 2147483648 -> div_next (mk_dstate d ((- Z.of_nat j) mod d)) = mk_dstate d ((- Z.of_nat (S j)) mod d) /\
  fires (mk_dstate d ((- Z.of_nat j) mod d)) = (Z.of_nat j mod d =? 0).
Proof.
  intros HD. unfold div_next, fires. cbn [ds_counter ds_divider].
  pose proof (Z.mod_pos_bound (- Z.of_nat j) d ltac:(lia)) as B. pose proof (Z.div_mod (- Z.of_nat j) d ltac:(lia)) as DM. set (q := - Z.of_nat j / d) in *. set (c := (- Z.of_nat j) mod d) in *.
  assert (FZ : (c =? 0) = (Z.of_nat j mod d =? 0)).
  { destruct (Z.eqb_spec c 0) as [C|C]; symmetry; [apply Z.eqb_eq|apply Z.eqb_neq].
    - replace (Z.of_nat j) with (- q * d) by lia. apply Z.mod_mul. lia.
    - intros Y. apply C. unfold c. apply Z_mod_zero_opp_full. exact Y. }
  split; [|exact FZ]. f_equal. destruct (Z.eqb_spec c 0) as [C|C].
  - apply Z.mod_unique with (q := q - 1); lia.
  - apply Z.mod_unique with (q := q); lia.
Qed.

Lemma marks_tick t d1 s1 t1 d2 s2 t2 : marks (t_istate (t_instrDiv t d1) s1) t1 -> marks (t_istate (t_instrDiv t1 d2) s2) t2 -> marks (t_istate (t_instrDiv t d2) s2) t2.
Proof. intros (u & a & b & c & ->) (u' & a' & b' & c' & ->). exists u', a', b', c'. reflexivity. Qed.

Lemma instr_ticks fuel sqs d k : 1 <= d < 2147483648 -> forall j t, track_ok fuel t -> slots fuel sqs t -> any_effect t = false -> has t FArp = false ->
  un_ctx (tr_unit t) <> None -> told t -> playing sqs (tr_istate t) -> tr_instrDiv t = mk_dstate d ((- Z.of_nat j) mod d) ->
  let sts := is_states (tr_istate t) in
  (forall i, (i < k)%nat -> (0 <? unfinished sqs (played fuel sqs (beats d j i) sts)) && (unfinished sqs (played fuel sqs (beats d j (S i)) sts) =? 0) = false) ->
  exists s' t', ticks fuel k t = Ok t' /\ track_ok fuel t' /\ marks (t_istate (t_instrDiv t (mk_dstate d ((- Z.of_nat (j + k)) mod d))) s') t' /\
    un_ctx (tr_unit t') = un_ctx (tr_unit t) /\ un_mute (tr_unit t') = un_mute (tr_unit t) /\ ((1 <= k)%nat \/ heard t -> heard t') /\ told t' /\
    is_states s' = played fuel sqs (beats d j k) sts /\ is_phase s' = is_phase (tr_istate t) /\ playing sqs s'.
Proof.
  intros HD. induction k as [|k IH]; intros j t H SL HE HA HC T PL DV sts HU.
  - exists (tr_istate t), t. split; [reflexivity|]. split; [exact H|]. split.
    { rewrite Nat.add_0_r, <- DV. replace (t_istate (t_instrDiv t (tr_instrDiv t)) (tr_istate t)) with t by (destruct t; reflexivity). apply marks_refl. }
    split; [reflexivity|]. split; [reflexivity|]. split; [intros [C|C]; [lia|exact C]|]. split; [exact T|]. split; [reflexivity|]. split; [reflexivity|exact PL].
  - destruct (div_count d j HD) as (DN & FI).
    destruct (tick_instr fuel sqs t H SL HE HA HC T PL) as (s1 & t1 & E1 & H1 & M1 & C1 & MU1 & L1 & T1 & D1 & S1 & P1 & PL1 & N1).
    { rewrite DV, FI. specialize (HU O ltac:(lia)). exact HU. }
    rewrite DV, FI in S1. rewrite DV, DN in M1.
    assert (I1 : tr_istate t1 = s1 /\ tr_instrDiv t1 = mk_dstate d ((- Z.of_nat (S j)) mod d) /\ tr_instr t1 = tr_instr t).
    { destruct M1 as (u & a & b & c & ->). auto. }
    destruct I1 as (I1 & I2 & I3).
    destruct (IH (S j) t1) as (s' & t' & E' & H' & M' & C' & MU' & HE' & T' & S' & P' & PL').
    { exact H1. } { destruct SL as (id & EI). exists id. congruence. } { unfold any_effect. rewrite !(marks_has _ _ _ M1) by discriminate. exact HE. }
    { rewrite (marks_has _ _ _ M1) by discriminate. exact HA. } { rewrite C1. exact HC. } { unfold told. auto. } { rewrite I1. exact PL1. } { exact I2. }
    { intros i Hi. specialize (HU (S i) ltac:(lia)). rewrite I1, S1. exact HU. }
    exists s', t'. cbn [ticks]. rewrite E1. cbn [bind]. split; [exact E'|]. split; [exact H'|]. split; [rewrite <- plus_n_Sm; exact (marks_tick _ _ _ _ _ _ _ M1 M')|].
    split; [congruence|]. split; [congruence|]. split; [intros _; apply HE'; right; unfold heard; auto|]. split; [exact T'|]. split; [rewrite S', I1, S1; reflexivity|]. split; [rewrite P', I1; exact P1|exact PL'].
Qed.

(** ** One slot *)

Definition slot_run (fuel : nat) (sq : option sequence) (levels : list Z) (st : sstate) : sstate := fold_left (fun st l => tick_slot fuel l (sq, st)) levels st.
Lemma ticked_slot fuel level sqs : forall sts i sq st, nth_error sqs i = Some sq -> nth_error sts i = Some st -> nth_error (ticked fuel sqs level sts) i = Some (tick_slot fuel level (sq, st)).
Proof.
  unfold ticked. induction sqs as [|q sqs IH]; intros [|s sts] [|i] sq st E1 E2; cbn in *; try discriminate.
  - congruence.
  - exact (IH _ _ _ _ E1 E2).
Qed.
Lemma played_slot fuel sqs i sq levels : forall sts st, nth_error sqs i = Some sq -> nth_error sts i = Some st -> nth_error (played fuel sqs levels sts) i = Some (slot_run fuel sq levels st).
Proof.
  unfold played, slot_run. induction levels as [|l levels IH]; intros sts st E1 E2; cbn [fold_left]; [exact E2|].
  apply IH; [exact E1|]. apply ticked_slot; assumption.
Qed.
Lemma run_none fuel levels : forall st, slot_run fuel None levels st = st.
Proof. unfold slot_run. induction levels as [|l levels IH]; intros st; cbn [fold_left]; [reflexivity|]. apply IH. Qed.
Lemma phased_slot fuel p sqs : forall sts i sq st, nth_error sqs i = Some sq -> nth_error sts i = Some st -> nth_error (phased fuel sqs p sts) i = Some (phase_slot fuel p (sq, st)).
Proof.
  unfold phased. induction sqs as [|q sqs IH]; intros [|s sts] [|i] sq st E1 E2; cbn in *; try discriminate.
  - congruence.
  - exact (IH _ _ _ _ E1 E2).
Qed.

Lemma unfinished_pos sqs : forall sts i sq st, nth_error sqs i = Some (Some sq) -> nth_error sts i = Some st -> doneb st = false -> 0 < unfinished sqs sts.
Proof.
  induction sqs as [|q sqs IH]; intros [|s sts] [|i] sq st E1 E2 D; cbn in *; try discriminate.
  - assert (q = Some sq) as -> by congruence. assert (s = st) as -> by congruence. rewrite D. pose proof (unfinished_nonneg sqs sts). lia.
  - specialize (IH _ _ _ _ E1 E2 D). destruct q; [destruct (doneb s)|]; lia.
Qed.
Lemma unfinished_none sqs : forall sts, (forall i sq, nth_error sqs i = Some sq -> sq = None) -> unfinished sqs sts = 0.
Proof.
  induction sqs as [|q sqs IH]; intros [|s sts] A; cbn; try reflexivity.
  rewrite (A O q eq_refl). rewrite IH; [reflexivity|]. intros i sq E. exact (A (S i) sq E).
Qed.

(** *** A value sequence *)

Section Values.
Context (vals : list Z) (sq : sequence) (so sl : nat).
Hypothesis V : sq_values sq = VSimple vals.
Hypothesis W : seq_wf sq (length vals) so sl.

Lemma attack_done w k st : attack_state vals so sl w k st -> doneb st = (so =? length vals)%nat && (length vals <? k)%nat.
Proof.
  intros (_ & [(o & HO & HR & _ & _ & C)|(HO & C & K & _)]); unfold doneb; rewrite HO.
  - destruct W as (_ & _ & _ & _ & W5). unfold BK_INT_MAX. change (2 ^ 28) with 268435456 in W5.
    destruct (Nat.eqb_spec so (length vals)); destruct (Nat.ltb_spec (length vals) k); cbn [andb]; lia.
  - rewrite Z.eqb_refl, C, Nat.eqb_refl. symmetry. apply Nat.ltb_lt. exact K.
Qed.

Lemma attack_beats fuel d w st : 1 <= d -> attack_state vals so sl w 0 st -> forall k,
  attack_state vals so sl w (Z.to_nat ((Z.of_nat k + d - 1) / d)) (slot_run fuel (Some sq) (beats d 0 k) st) /\
  ((1 <= k)%nat -> st_value (slot_run fuel (Some sq) (beats d 0 k) st) = attack_value vals so sl w (Z.to_nat (Z.of_nat (k - 1) / d))).
Proof.
  intros HD A k. induction k as [|k (IA & IV)].
  - split; [|lia]. change (Z.of_nat 0) with 0. rewrite Z.div_small by lia. exact A.
  - assert (EB : slot_run fuel (Some sq) (beats d 0 (S k)) st = tick_slot fuel (if Z.of_nat k mod d =? 0 then 1 else 0) (Some sq, slot_run fuel (Some sq) (beats d 0 k) st)).
    { unfold beats, slot_run. rewrite seq_S, map_app, fold_left_app. reflexivity. }
    rewrite EB. clear EB. set (st1 := slot_run fuel (Some sq) (beats d 0 k) st) in *. clearbody st1. rewrite Nat.sub_succ, Nat.sub_0_r. unfold tick_slot. cbn [fst snd].
    pose proof (Z.div_mod (Z.of_nat k) d ltac:(lia)) as DM. pose proof (Z.mod_pos_bound (Z.of_nat k) d ltac:(lia)) as MB. pose proof (Z.div_pos (Z.of_nat k) d ltac:(lia) ltac:(lia)) as DP.
    set (q := Z.of_nat k / d) in *. set (m := Z.of_nat k mod d) in *.
    assert (N1 : (Z.of_nat (S k) + d - 1) / d = q + 1) by (symmetry; apply Z.div_unique with (r := m); lia).
    rewrite N1. destruct (Z.eqb_spec m 0) as [M0|M0].
    + assert (N0 : (Z.of_nat k + d - 1) / d = q) by (symmetry; apply Z.div_unique with (r := d - 1); lia). rewrite N0 in IA.
      destruct (attack_step vals sq so sl W V w _ st1 fuel 1 IA ltac:(lia)) as (st' & -> & A' & V'). replace (Z.to_nat (q + 1)) with (S (Z.to_nat q)) by lia. auto.
    + assert (N0 : (Z.of_nat k + d - 1) / d = q + 1) by (symmetry; apply Z.div_unique with (r := m - 1); lia). rewrite N0 in IA.
      rewrite (simple_step_undivided vals sq V fuel st1 0) by lia. split; [exact IA|]. intros _. rewrite IV by lia.
      replace (Z.of_nat (k - 1) / d) with q; [reflexivity|]. apply Z.div_unique with (r := m - 1); lia.
Qed.
End Values.

(** ** Slots of a track *)

Definition slot_at (fuel : nat) (sq : sequence) (d : Z) (k : nat) (st : sstate) : sstate := slot_run fuel (Some sq) (beats d 0 k) (phase_slot fuel 1 (Some sq, st)).

Lemma slot_value_nth t i st : 0 <= i -> nth_error (is_states (tr_istate t)) (Z.to_nat i) = Some st -> slot_value t i = Ok (st_value st).
Proof. intros Hi E. unfold slot_value. rewrite (nth_error_aget' _ _ _ Hi E). reflexivity. Qed.

Lemma play_fields t t' : play t t' -> tr_rate t' = tr_rate t /\ tr_instrDiv t' = tr_instrDiv t /\ tr_waveform t' = tr_waveform t /\ tr_duty t' = tr_duty t /\
  tr_samplePitch t' = tr_samplePitch t /\ tr_master t' = tr_master t /\ tr_volume t' = tr_volume t /\ tr_panning t' = tr_panning t /\ tr_pitch t' = tr_pitch t /\ tr_instr t' = tr_instr t /\
  (forall x, x <> FVolume -> x <> FNote -> x <> FDuty -> has t' x = has t x).
Proof.
  intros (u & a & b & c & s & n & m & ->). repeat (split; [reflexivity|]). intros x X1 X2 X3. destruct x; try reflexivity; congruence.
Qed.
Lemma any_or_none (sqs : list (option sequence)) : (exists j sq, nth_error sqs j = Some (Some sq)) \/ (forall i sq, nth_error sqs i = Some sq -> sq = None).
Proof.
  induction sqs as [|[sq|] sqs IH].
  - right. intros [|i] sq E; discriminate.
  - left. exists O, sq. reflexivity.
  - destruct IH as [(j & sq & E)|A]; [left; exists (S j), sq; exact E|]. right. intros [|i] sq E; cbn in E; [congruence|]. exact (A i sq E).
Qed.
Lemma Forall2_nth_error {A B} (R : A -> B -> Prop) l l' i a b : Forall2 R l l' -> nth_error l i = Some a -> nth_error l' i = Some b -> R a b.
Proof. intros F. revert i. induction F as [|x y l l' RX F IH]; intros [|i] E1 E2; cbn in *; try discriminate; [congruence|]. exact (IH i E1 E2). Qed.
