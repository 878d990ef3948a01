(** Value sequences of a released note, and when it ends. *)
From Verif Require Import CInt CIntFacts DataModel UnitModel UnitSpec
  SequenceModel SequenceSpec SequenceProofs InstrumentProofs InstrBounds
  TrackModel TrackSpec TrackInv TrackTicks TrackNote TrackAttrs TrackInstr TrackInstr2 TrackInstr3 TrackInstr4.
Ltac Zify.zify_post_hook ::= idtac.
Local Notation ticked := SequenceSpec.ticked.
Local Notation played := SequenceSpec.played.

(** Divided ticks among the first [k] ticks. *)
Definition divided (d : Z) (k : nat) : nat := Z.to_nat ((Z.of_nat k + d - 1) / d).
Lemma divided_0 d : 1 <= d -> divided d 0 = O.
Proof. intros H. unfold divided. change (Z.of_nat 0) with 0. rewrite Z.div_small by lia. reflexivity. Qed.
Lemma divided_S d k : 1 <= d -> divided d (S k) = (divided d k + (if (Z.of_nat k mod d =? 0)%Z then 1 else 0))%nat.
Proof.
  intros H. unfold divided. pose proof (Z.div_mod (Z.of_nat k) d ltac:(lia)) as DM. pose proof (Z.mod_pos_bound (Z.of_nat k) d ltac:(lia)) as MB. pose proof (Z.div_pos (Z.of_nat k) d ltac:(lia) ltac:(lia)) as DP.
  set (q := Z.of_nat k / d) in *. set (m := Z.of_nat k mod d) in *.
  assert (N1 : (Z.of_nat (S k) + d - 1) / d = q + 1) by (symmetry; apply Z.div_unique with (r := m); lia). rewrite N1.
  destruct (Z.eqb_spec m 0) as [M0|M0].
  - assert (N0 : (Z.of_nat k + d - 1) / d = q) by (symmetry; apply Z.div_unique with (r := d - 1); lia). rewrite N0. lia.
  - assert (N0 : (Z.of_nat k + d - 1) / d = q + 1) by (symmetry; apply Z.div_unique with (r := m - 1); lia). rewrite N0. lia.
Qed.
Lemma divided_mono d a b : 1 <= d -> (a <= b)%nat -> (divided d a <= divided d b)%nat.
Proof. intros H. induction 1 as [|b L IH]; [lia|]. rewrite divided_S by exact H. lia. Qed.

Lemma beats_S d j k : beats d j (S k) = beats d j k ++ [if Z.of_nat (j + k) mod d =? 0 then 1 else 0].
Proof. unfold beats. rewrite seq_S, map_app. reflexivity. Qed.
Lemma run_S fuel sq d j k st : slot_run fuel sq (beats d j (S k)) st = tick_slot fuel (if Z.of_nat (j + k) mod d =? 0 then 1 else 0) (sq, slot_run fuel sq (beats d j k) st).
Proof. rewrite beats_S. unfold slot_run. rewrite fold_left_app. reflexivity. Qed.
Lemma played_S fuel sqs d j k sts : played fuel sqs (beats d j (S k)) sts = ticked fuel sqs (if Z.of_nat (j + k) mod d =? 0 then 1 else 0) (played fuel sqs (beats d j k) sts).
Proof. rewrite beats_S. unfold SequenceSpec.played. rewrite fold_left_app. reflexivity. Qed.

Section Release.
Context (vals : list Z) (sq : sequence) (so sl : nat).
Hypothesis V : sq_values sq = VSimple vals.
Hypothesis W : seq_wf sq (length vals) so sl.

Lemma release_beats fuel d w j st : 1 <= d -> release_state vals so sl w 0 st -> st_value st = release_value vals so sl w 0 -> forall i,
  let n := (divided d (j + i) - divided d j)%nat in
  release_state vals so sl w n (slot_run fuel (Some sq) (beats d j i) st) /\ st_value (slot_run fuel (Some sq) (beats d j i) st) = release_value vals so sl w (Nat.pred n).
Proof.
  intros HD R RV i. induction i as [|i (IR & IV)]; cbv zeta in *.
  - rewrite Nat.add_0_r, Nat.sub_diag. auto.
  - rewrite run_S. pose proof (divided_mono d j (j + i) HD ltac:(lia)) as DM. rewrite <- plus_n_Sm, divided_S by exact HD. set (n := (divided d (j + i) - divided d j)%nat) in *.
    set (st1 := slot_run fuel (Some sq) (beats d j i) st) in *. clearbody st1. unfold tick_slot. cbn [fst snd]. destruct (Z.of_nat (j + i) mod d =? 0).
    + replace (divided d (j + i) + 1 - divided d j)%nat with (S n) by lia.
      destruct (release_step vals sq so sl W V w n st1 fuel 1 IR ltac:(lia)) as (st' & -> & A' & V'). auto.
    + replace (divided d (j + i) + 0 - divided d j)%nat with n by lia. rewrite (simple_step_undivided vals sq V fuel st1 0) by lia. auto.
Qed.
Lemma release_done w n st : release_state vals so sl w n st -> doneb st = (length vals - (so + sl) =? 0)%nat || (length vals - (so + sl) <? n)%nat.
Proof.
  destruct W as (_ & _ & _ & W4 & W5). change (2 ^ 28) with 268435456 in W5. intros (_ & [(HO & HR & HS & _)|(HO & HK & HS & _)]); unfold doneb; rewrite HO; unfold BK_INT_MAX.
  - destruct (Nat.eqb_spec (length vals - (so + sl)) 0); [lia|]. destruct (Nat.ltb_spec (length vals - (so + sl)) n); [lia|]. cbn [orb]. lia.
  - rewrite Z.eqb_refl. symmetry. apply orb_true_iff. destruct (Nat.eqb_spec (length vals - (so + sl)) 0); [auto|]. right. apply Nat.ltb_lt. lia.
Qed.
(** The values behind the sustain part, of which the last stays. *)
Lemma release_tail w n : release_value vals so sl w n = nth (Nat.min n (length (skipn (so + sl) vals) - 1)) (skipn (so + sl) vals) w.
Proof.
  destruct W as (_ & _ & _ & W4 & _). unfold release_value. rewrite skipn_length.
  assert (NS : forall i, nth i (skipn (so + sl) vals) w = nth (so + sl + i) vals w) by (intros i; rewrite <- (firstn_skipn (so + sl) vals) at 2; rewrite app_nth2; rewrite firstn_length; [f_equal; lia|lia]).
  rewrite NS. destruct (nth_error vals (so + sl + n)) as [v|] eqn:E.
  - assert (so + sl + n < length vals)%nat by (apply nth_error_Some; congruence). rewrite Nat.min_l by lia. symmetry. apply nth_error_nth. exact E.
  - apply nth_error_None in E. destruct (Nat.eqb_spec (so + sl) (length vals)) as [L|L].
    + rewrite nth_overflow by lia. reflexivity.
    + rewrite Nat.min_r by lia. replace (so + sl + (length vals - (so + sl) - 1))%nat with (length vals - 1)%nat by lia.
      destruct (nth_error vals (length vals - 1)) as [v|] eqn:EL; [|apply nth_error_None in EL; lia]. rewrite (nth_last vals vals w v EL). symmetry. apply nth_error_nth. exact EL.
Qed.
End Release.

(** ** The end of all sequences *)

Lemma unfinished_zero sqs : forall sts, (forall i sq st, nth_error sqs i = Some (Some sq) -> nth_error sts i = Some st -> doneb st = true) -> unfinished sqs sts = 0.
Proof.
  induction sqs as [|q sqs IH]; intros [|s sts] A; cbn; try reflexivity.
  rewrite (IH sts); [|intros i sq st E1 E2; exact (A (S i) sq st E1 E2)]. destruct q as [q|]; [|reflexivity]. rewrite (A O q s eq_refl eq_refl). reflexivity.
Qed.

Lemma ticks_app fuel a b : forall t, ticks fuel (a + b) t = let* t := ticks fuel a t in ticks fuel b t.
Proof. induction a as [|a IH]; intros t; cbn [ticks Nat.add]; [reflexivity|]. destruct (BKTrackTick fuel t); cbn [bind]; [apply IH|reflexivity]. Qed.

(** A voice whose sequences all end after some ticks: it is silent from then on. *)
Lemma voice_ends fuel sqs d j note t m : 1 <= d < 2147483648 -> voice fuel sqs d j note t -> let sts := is_states (tr_istate t) in
  0 < unfinished sqs sts -> unfinished sqs (played fuel sqs (beats d j m) sts) = 0 -> exists t', ticks fuel m t = Ok t' /\ silent t'.
Proof.
  intros HD V sts U0 UM.
  assert (L : exists i, (i < m)%nat /\ unfinished sqs (played fuel sqs (beats d j (S i)) sts) = 0 /\ forall i', (i' <= i)%nat -> 0 < unfinished sqs (played fuel sqs (beats d j i') sts)).
  { clear - U0 UM. induction m as [|m IH]; [exfalso; change (played fuel sqs (beats d j 0) sts) with sts in UM; lia|].
    destruct (Z.eq_dec (unfinished sqs (played fuel sqs (beats d j m) sts)) 0) as [E|E]; [destruct (IH E) as (i & H1 & H2 & H3); exists i; split; [lia|auto]|].
    assert (D : (exists i, (i < m)%nat /\ unfinished sqs (played fuel sqs (beats d j (S i)) sts) = 0 /\ forall i', (i' <= i)%nat -> 0 < unfinished sqs (played fuel sqs (beats d j i') sts)) \/
      forall i', (i' <= m)%nat -> 0 < unfinished sqs (played fuel sqs (beats d j i') sts)).
    { clear - U0 E. assert (X : forall n, (n <= m)%nat -> (exists i, (i < m)%nat /\ unfinished sqs (played fuel sqs (beats d j (S i)) sts) = 0 /\ forall i', (i' <= i)%nat -> 0 < unfinished sqs (played fuel sqs (beats d j i') sts)) \/
        forall i', (i' <= n)%nat -> 0 < unfinished sqs (played fuel sqs (beats d j i') sts)); [|apply X; lia].
      induction n as [|n IHn]; intros Hn; [right; intros i' Hi; replace i' with O by lia; exact U0|].
      destruct (IHn ltac:(lia)) as [A|A]; [left; exact A|]. pose proof (unfinished_nonneg sqs (played fuel sqs (beats d j (S n)) sts)).
      destruct (Z.eq_dec (unfinished sqs (played fuel sqs (beats d j (S n)) sts)) 0) as [Z0|Z0]; [left; exists n; split; [lia|auto]|].
      right. intros i' Hi. destruct (Nat.eq_dec i' (S n)) as [->|]; [lia|]. apply A. lia. }
    destruct D as [(i & H1 & H2 & H3)|D]; [exists i; split; [lia|auto]|]. exists m. split; [lia|]. auto. }
  destruct L as (i & Hi & UE & UP).
  destruct (voice_ticks fuel sqs d j note i t HD V) as (t1 & E1 & V1 & _ & _ & _ & S1 & _).
  { intros i' Hi'. fold sts. specialize (UP (S i') ltac:(lia)). apply andb_false_iff. right. lia. }
  fold sts in S1.
  assert (EN : exists t2, BKTrackTick fuel t1 = Ok t2 /\ track_ok fuel t2 /\ silent t2).
  { apply (voice_end fuel sqs d (j + i) note t1 V1). rewrite (vo_div _ _ _ _ _ _ V1). destruct (div_count d (j + i) HD) as (_ & ->). rewrite S1, <- played_S, UE. specialize (UP i ltac:(lia)). apply andb_true_iff. split; [lia|reflexivity]. }
  destruct EN as (t2 & E2 & H2 & S2). destruct (ticks_silent fuel (m - S i) t2 H2 S2) as (t3 & E3 & _ & S3). exists t3. split; [|exact S3].
  replace m with (i + S (m - S i))%nat by lia. rewrite ticks_app, E1. cbn [bind ticks]. rewrite E2. exact E3.
Qed.
