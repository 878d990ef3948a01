(** The period of the noise generator. *)
From Verif Require Import CInt CIntFacts DataModel UnitModel UnitSpec UnitProofs UnitProofs2 UnitProofs3 UnitInv.
Ltac Zify.zify_post_hook ::= idtac.

Definition noise_next (p : Z) : Z := fst (noise_step p).
Definition noise_iter (n : nat) (p : Z) : Z := Nat.iter n noise_next p.
Definition noise_state (p : Z) : Prop := 1 <= p < 65536.

Lemma noise_next_state p : noise_state p -> noise_state (noise_next p).
Proof.
  intros H. unfold noise_state, noise_next in *.
  destruct (noise_step_nonzero p ltac:(lia) ltac:(lia)) as [H1 H2].
  destruct (noise_step_range p ltac:(lia)) as [H3 _]. lia.
Qed.

Lemma iter_state n p : noise_state p -> noise_state (noise_iter n p).
Proof. intros H. induction n as [|n IH]; [exact H|]. apply noise_next_state. exact IH. Qed.

Lemma iter_add n m p : noise_iter (n + m) p = noise_iter n (noise_iter m p).
Proof. induction n as [|n IH]; [reflexivity|]. unfold noise_iter in *. cbn [Nat.add Nat.iter nat_rect]. f_equal. exact IH. Qed.

Lemma iter_comm n m p : noise_iter n (noise_iter m p) = noise_iter m (noise_iter n p).
Proof. rewrite <- !iter_add. f_equal. lia. Qed.

(** All steps of one round, starting at the value a unit starts with. *)
Fixpoint no_return (k : nat) (p : Z) : bool :=
  match k with
  | O => true
  | S k => if p =? 19009 then false else no_return k (noise_next p)
  end.

Lemma no_return_spec k : forall p, no_return k p = true -> forall i, (i < k)%nat -> noise_iter i p <> 19009.
Proof.
  induction k as [|k IH]; intros p H i Hi; [lia|]. cbn [no_return] in H.
  destruct (Z.eqb_spec p 19009) as [|N]; [discriminate|]. destruct i as [|i]; [exact N|].
  replace (S i) with (i + 1)%nat by lia. rewrite iter_add. apply (IH (noise_next p)); [exact H|lia].
Qed.

Definition round : nat := Z.to_nat 65535.

Lemma start_return : noise_iter round 19009 = 19009.
Proof. unfold noise_iter, round. vm_compute. reflexivity. Qed.

Lemma start_no_return : no_return (Z.to_nat 65534) (noise_next 19009) = true.
Proof. vm_compute. reflexivity. Qed.

Lemma round_z : Z.of_nat round = 65535.
Proof. unfold round. rewrite Z2Nat.id by lia. reflexivity. Qed.
Opaque round.

Lemma start_least n : (0 < n < round)%nat -> noise_iter n 19009 <> 19009.
Proof.
  intros H. pose proof round_z as R. replace n with ((n - 1) + 1)%nat by lia. rewrite iter_add.
  apply (no_return_spec _ _ start_no_return). lia.
Qed.

Lemma start_inj i j : (i < j < round)%nat -> noise_iter i 19009 <> noise_iter j 19009.
Proof.
  intros H E. apply (start_least (round - j + i)%nat); [lia|].
  rewrite iter_add, E, <- iter_add. replace (round - j + j)%nat with round by lia. apply start_return.
Qed.

Lemma nodup_iter : NoDup (map (fun i => noise_iter i 19009) (seq 0 round)).
Proof.
  assert (G : forall n s, (s + n <= round)%nat -> NoDup (map (fun i => noise_iter i 19009) (seq s n))).
  { induction n as [|n IH]; intros s H; cbn [seq map]; constructor.
    - intros Hin. apply in_map_iff in Hin. destruct Hin as (j & Hj & Hin). apply in_seq in Hin.
      symmetry in Hj. revert Hj. apply start_inj. lia.
    - apply IH. lia. }
  apply G. lia.
Qed.

(** Every state is one of the round. *)
Lemma reach p : noise_state p -> exists k, (k < round)%nat /\ p = noise_iter k 19009.
Proof.
  intros H. pose proof round_z as R.
  assert (I : incl (map Z.of_nat (seq 1 round)) (map (fun i => noise_iter i 19009) (seq 0 round))).
  { apply NoDup_length_incl.
    - exact nodup_iter.
    - rewrite !map_length, !seq_length. lia.
    - intros x Hx. apply in_map_iff in Hx. destruct Hx as (k & <- & _).
      assert (S0 : noise_state (noise_iter k 19009)) by (apply iter_state; unfold noise_state; lia).
      unfold noise_state in S0. apply in_map_iff. exists (Z.to_nat (noise_iter k 19009)).
      split; [lia|]. apply in_seq. lia. }
  unfold noise_state in H.
  assert (Hin : In p (map Z.of_nat (seq 1 round))).
  { apply in_map_iff. exists (Z.to_nat p). split; [lia|]. apply in_seq. lia. }
  apply I in Hin. apply in_map_iff in Hin. destruct Hin as (k & <- & Hk). apply in_seq in Hk.
  exists k. split; [lia|reflexivity].
Qed.

Theorem noise_period p : noise_state p ->
  noise_iter round p = p /\ forall n, (0 < n < round)%nat -> noise_iter n p <> p.
Proof.
  intros H. destruct (reach p H) as (k & Hk & ->). split.
  - rewrite iter_comm, start_return. reflexivity.
  - intros n Hn E. apply (start_least n Hn).
    assert (E2 : noise_iter (round - k) (noise_iter n (noise_iter k 19009)) = noise_iter (round - k) (noise_iter k 19009))
      by (rewrite E; reflexivity).
    rewrite <- !iter_add in E2.
    assert (A1 : (round - k + k = round)%nat) by lia. assert (A2 : (round - k + n + k = n + round)%nat) by lia.
    rewrite A1, start_return, A2, (iter_add n round), start_return in E2. exact E2.
Qed.

Theorem noise_visits p q : noise_state p -> noise_state q -> exists n, (n < round)%nat /\ noise_iter n p = q.
Proof.
  intros Hp Hq. destruct (reach p Hp) as (k & Hk & ->). destruct (reach q Hq) as (j & Hj & ->).
  destruct (Nat.le_gt_cases k j).
  - exists (j - k)%nat. split; [lia|]. rewrite <- iter_add. f_equal. lia.
  - exists (j + (round - k))%nat. split; [lia|]. rewrite <- iter_add.
    replace (j + (round - k) + k)%nat with (j + round)%nat by lia. rewrite iter_add, start_return. reflexivity.
Qed.

(** What a run of a noise unit does to the state. *)
Lemma wave_raw_noise fuel : forall u endTime time phase wc t ph wc' raw,
  un_waveform u = BK_NOISE -> ph_wrap (un_phase u) = 0 ->
  wave_raw fuel u endTime time phase wc = Ok (t, ph, wc', raw) ->
  ph = noise_iter (length raw) phase /\ wc' = wc /\
  (forall i, (i < length raw)%nat -> snd (nth i raw (0, 0)) = snd (noise_step (noise_iter i phase))).
Proof.
  induction fuel as [|fuel IH]; intros * Hw Hwr H; cbn [wave_raw] in H; destruct (time <? endTime).
  - discriminate.
  - injection H as <- <- <- <-. split; [reflexivity|]. split; [reflexivity|]. intros i Hi. cbn in Hi. lia.
  - unfold wave_step in H at 1. rewrite Hw in H. unfold wrap_step in H at 1. rewrite Hwr in H.
    cbn [Z.eqb negb] in H.
    replace (BK_NOISE =? BK_SQUARE) with false in H by reflexivity.
    replace (BK_NOISE =? BK_TRIANGLE) with false in H by reflexivity.
    replace (BK_NOISE =? BK_NOISE) with true in H by reflexivity.
    destruct (noise_step phase) as [ph1 q] eqn:En. cbn [bind] in H.
    apply bind_ok in H. destruct H as ([[[t1 ph2] wc2] raw2] & E & H). injection H as <- <- <- <-.
    apply IH in E; auto. destruct E as (-> & -> & Hr).
    assert (Ep : ph1 = noise_next phase) by (unfold noise_next; rewrite En; reflexivity).
    split; [|split; [reflexivity|]].
    + cbn [length]. replace (S (length raw2)) with (length raw2 + 1)%nat by lia. rewrite iter_add. rewrite Ep. reflexivity.
    + intros [|i] Hi; cbn [nth snd].
      * unfold noise_iter. cbn [Nat.iter nat_rect]. rewrite En. reflexivity.
      * cbn [length] in Hi. rewrite Hr by lia. replace (S i) with (i + 1)%nat by lia. rewrite iter_add, Ep. reflexivity.
  - injection H as <- <- <- <-. split; [reflexivity|]. split; [reflexivity|]. intros i Hi. cbn in Hi. lia.
Qed.
