(** Sums of pulses, ranges of values, attributes. *)
From Verif Require Import CInt CIntFacts DataModel UnitModel UnitSpec UnitProofs UnitProofs2 UnitProofs3 UnitInv UnitInv2 UnitInv3 UnitNoise.
Ltac Zify.zify_post_hook ::= idtac.

(** ** Sums *)

Lemma sum_chan v raw : forall last, sum_values (chan_deltas v last raw) = last_level v last raw - last.
Proof.
  unfold last_level. induction raw as [|[t p] raw IH]; intros last; cbn [chan_deltas sum_values fold_right fold_left snd].
  - lia.
  - unfold sum_values in IH. rewrite IH. lia.
Qed.

Lemma nth_repeat_nil {A} n k : nth k (repeat (@nil A) n) [] = [].
Proof. revert k. induction n as [|n IH]; intros [|k]; cbn; auto. Qed.

Lemma waveform_sum fuel u n t u' t' l k : BKUnitRunWaveform fuel u n t = Ok (u', t', l) ->
  sum_values (nth k l []) = lastp u' k - lastp u k.
Proof.
  unfold BKUnitRunWaveform. destruct (negb (un_mute u =? 0)).
  - intros H. assert (u' = u /\ l = repeat [] (Z.to_nat n)) as [-> ->] by (split; congruence).
    rewrite nth_repeat_nil. cbn. lia.
  - intros H. change 0 with (Z.of_nat 0) in H at 1. apply wave_channels_char in H.
    destruct H as (m & C & L & LL & Pn & N). cbv zeta in *. rewrite Pn. cbn [Nat.add] in *.
    change (0 <=? k)%nat with true. cbn [andb].
    destruct (Nat.ltb_spec k (Z.to_nat n)) as [Hk|Hk]; cbn [andb].
    + rewrite (N k Hk). destruct (vol u k =? 0); cbn [negb]; [cbn; lia|]. apply sum_chan.
    + rewrite nth_overflow by lia. cbn. lia.
Qed.

Lemma pulse_delta_diff p v last d c : pulse_delta p v last = Ok (d, c) -> c = d - last.
Proof. intros H. apply pulse_delta_inv in H. destruct H as [-> ->]. reflexivity. Qed.

Lemma sample_channels_sum n : forall i u idx last d, sample_channels n i u idx = Ok (last, d) -> 0 <= i ->
  length d = n /\ length last = length (un_lastPulse u) /\
  (forall k, (k < Z.to_nat i)%nat \/ (Z.to_nat i + n <= k)%nat -> nth k last 0 = lastp u k) /\
  (forall k, (k < n)%nat -> nth k d 0 = nth (Z.to_nat i + k) last 0 - lastp u (Z.to_nat i + k)).
Proof.
  induction n as [|n IH]; intros * H Hi; cbn [sample_channels] in H.
  - injection H as <- <-. repeat split. intros k Hk. lia.
  - destruct (sm_frames (un_sample u)) as [[frames base]|]; [|discriminate].
    apply bind_ok in H. destruct H as (v & _ & H). apply bind_ok in H. destruct H as (p & _ & H).
    apply bind_ok in H. destruct H as (lp & El & H). apply bind_ok in H. destruct H as ([dl cd] & Ed & H).
    apply bind_ok in H. destruct H as (la & Ea & H). apply bind_ok in H. destruct H as ([la' l'] & Er & H).
    injection H as <- <-.
    pose proof (aget_bounds _ _ _ El) as Hb. rewrite (aget_nth _ _ 0) in El by exact Hb. injection El as El.
    fold (lastp u (Z.to_nat i)) in El. rewrite aset_ok in Ea by exact Hb. injection Ea as <-.
    apply pulse_delta_diff in Ed.
    apply IH in Er; [|lia]. destruct Er as (L1 & L2 & Ho & Hn).
    replace (Z.to_nat (i + 1)) with (S (Z.to_nat i)) in * by lia.
    change (un_lastPulse (set_lastPulse u ?x)) with x in *. rewrite upd_length in L2.
    assert (Hp : forall k, lastp (set_lastPulse u (upd (un_lastPulse u) (Z.to_nat i) dl)) k =
                 if (k =? Z.to_nat i)%nat then dl else lastp u k).
    { intros k. unfold lastp. ucbn. destruct (Nat.eqb_spec k (Z.to_nat i)) as [-> |N].
      - apply nth_upd_eq. lia.
      - apply nth_upd_neq. auto. }
    split; [cbn [length]; lia|]. split; [exact L2|]. split.
    + intros k Hk. rewrite Ho by lia. rewrite Hp. replace (k =? Z.to_nat i)%nat with false by lia. reflexivity.
    + intros [|k] Hk; cbn [nth].
      * rewrite Nat.add_0_r. rewrite Ho by lia. rewrite Hp, Nat.eqb_refl. rewrite El. exact Ed.
      * rewrite Hn by lia. rewrite Hp. replace (S (Z.to_nat i) + k =? Z.to_nat i)%nat with false by lia.
        replace (Z.to_nat i + S k)%nat with (S (Z.to_nat i) + k)%nat by lia. reflexivity.
Qed.

Lemma zip_sum t d : forall l k, length d = length l ->
  sum_values (nth k (zip_pulses t d l) []) = nth k d 0 + sum_values (nth k l []).
Proof.
  induction d as [|v d IH]; intros [|p l] [|k] H; cbn [zip_pulses nth length] in *; try discriminate; try reflexivity.
  apply IH. lia.
Qed.

Lemma same_last_reset fuel u u' h : BKUnitResetSample fuel u = Ok (u', h) -> un_lastPulse u' = un_lastPulse u.
Proof.
  unfold BKUnitResetSample. cbv zeta. intros H. apply bind_ok in H. destruct H as ([ph dir] & _ & H).
  match type of H with (let '(_, _) := ?e in _) = _ => destruct e as [p m] end.
  destruct (m =? 0).
  - match type of H with Ok (?x, _) = _ => assert (u' = x) as -> by congruence end. reflexivity.
  - apply bind_ok in H. destruct H as (per & _ & H).
    match type of H with Ok (?x, _) = _ => assert (u' = x) as -> by congruence end. reflexivity.
Qed.

Lemma same_last_sustain c u : un_lastPulse (sustain_step c u) = un_lastPulse u.
Proof.
  unfold sustain_step. cbv zeta. destruct c; [|reflexivity].
  destruct (_ >? 0); [destruct (_ >=? _)|destruct (_ <? _)]; reflexivity.
Qed.

Lemma same_last_advance u u' : sample_advance u = Ok u' -> un_lastPulse u' = un_lastPulse u.
Proof.
  unfold sample_advance. cbv zeta. intros H. apply bind_ok in H. destruct H as (tf & _ & H).
  match type of H with Ok ?x = _ => assert (u' = x) as -> by congruence end. reflexivity.
Qed.

Lemma sample_sum fuel : forall u n c time t u' t' l k, sample_loop fuel u n c time t = Ok (u', t', l) ->
  sum_values (nth k l []) = lastp u' k - lastp u k /\ length l = Z.to_nat n.
Proof.
  induction fuel as [|fuel IH]; intros * H; cbn [sample_loop] in H; destruct (u32 time <? t).
  - discriminate.
  - assert (u' = u /\ l = repeat [] (Z.to_nat n)) as [-> ->] by (split; congruence).
    rewrite nth_repeat_nil, repeat_length. cbn. lia.
  - cbv zeta in H. apply bind_ok in H. destruct H as ([last d] & Ec & H).
    apply bind_ok in H. destruct H as (at_ & _ & H). apply bind_ok in H. destruct H as (u1 & E1 & H).
    apply bind_ok in H. destruct H as ([u2 halt] & E2 & H).
    apply sample_channels_sum in Ec; [|lia]. destruct Ec as (Ld & Ll & Ho & Hn).
    assert (L2 : un_lastPulse u2 = last).
    { apply same_last_advance in E1. destruct ((_ <? 0) || _).
      - apply same_last_reset in E2. rewrite E2, E1. reflexivity.
      - assert (u2 = u1) as -> by congruence. rewrite E1. reflexivity. }
    assert (Hd : nth k d 0 = lastp u2 k - lastp u k).
    { unfold lastp at 1. rewrite L2. destruct (Nat.lt_ge_cases k (Z.to_nat n)) as [Hk|Hk].
      - specialize (Hn k Hk). cbn [Z.to_nat Nat.add] in Hn. exact Hn.
      - rewrite (nth_overflow d) by lia. rewrite Ho by (right; cbn; lia). lia. }
    destruct halt.
    + match type of H with Ok (?x, _, ?y) = _ => assert (u' = x /\ l = y) as [-> ->] by (split; congruence) end.
      rewrite zip_sum by (rewrite repeat_length; exact Ld). rewrite nth_repeat_nil, Hd.
      rewrite zip_pulses_length, repeat_length. cbn. lia.
    + apply bind_ok in H. destruct H as (next & _ & H). apply bind_ok in H. destruct H as ([[u3 t3] l3] & E3 & H).
      match type of H with Ok (?x, _, ?y) = _ => assert (u' = x /\ l = y) as [-> ->] by (split; congruence) end.
      destruct (IH _ _ _ _ _ _ _ _ k E3) as [H1 H2].
      rewrite zip_sum by lia. rewrite H1, Hd, zip_pulses_length. unfold lastp. rewrite same_last_sustain. lia.
  - assert (u' = u /\ l = repeat [] (Z.to_nat n)) as [-> ->] by (split; congruence).
    rewrite nth_repeat_nil, repeat_length. cbn. lia.
Qed.

Theorem run_sum fuel u t u' l k : BKUnitRun fuel u t = Ok (u', l) ->
  sum_values (nth k l []) = lastp u' k - lastp u k.
Proof.
  unfold BKUnitRun. destruct (un_ctx u) as [n|]; [|discriminate]. cbv zeta. intros H.
  apply bind_ok in H. destruct H as ([[u1 t1] l1] & E & H).
  match type of H with Ok (?x, ?y) = _ => assert (u' = x /\ l = y) as [-> ->] by (split; congruence) end.
  match goal with |- context [set_time u1 ?x] => change (lastp (set_time u1 x) k) with (lastp u1 k) end.
  assert (Idle : forall x, Ok (u, x, repeat [] (Z.to_nat n)) = Ok (u1, t1, l1) ->
            sum_values (nth k l1 []) = lastp u1 k - lastp u k).
  { intros x Hx. assert (u1 = u /\ l1 = repeat [] (Z.to_nat n)) as [-> ->] by (split; congruence).
    rewrite nth_repeat_nil. cbn. lia. }
  destruct (un_period u =? 0); [exact (Idle _ E)|].
  destruct (_ && _); [eapply waveform_sum; exact E|].
  destruct (_ =? BK_SAMPLE); [|exact (Idle _ E)].
  revert E. unfold BKUnitRunSample. destruct (negb _); [apply Idle|]. intros E.
  apply bind_ok in E. destruct E as (d & _ & E). apply bind_ok in E. destruct E as (len & _ & E).
  destruct (len <? 2); [exact (Idle _ E)|].
  apply bind_ok in E. destruct E as ([[u2 t2] l2] & E2 & E).
  assert (u1 = u2 /\ l1 = l2) as [-> ->] by (split; congruence).
  eapply sample_sum. exact E2.
Qed.

(** Nothing else changes the level, but a reset. *)
Lemma attr_last u attr v u' r : BKUnitSetAttr u attr v = Ok (u', r) -> un_lastPulse u' = un_lastPulse u.
Proof.
  unfold BKUnitSetAttr. cbv zeta. intros H.
  assert (K : forall (x : bkunit) y, Ok (x, y) = Ok (u', r) -> u' = x) by (intros; congruence).
  repeat match type of H with
  | (if ?c then _ else _) = Ok _ => destruct c
  | match ?c with Some _ => _ | None => _ end = Ok _ => destruct c
  | bind _ _ = Ok _ => apply bind_ok in H; destruct H as (? & _ & H)
  end; apply K in H; subst u'; try reflexivity; repeat destruct (if _ then _ else _); try reflexivity.
  - destruct (_ && _ && _); reflexivity.
  - destruct (negb _); reflexivity.
Qed.

Lemma try_last u data type dispose u' r : BKUnitTrySetData u data type dispose = Ok (u', r) ->
  un_lastPulse u' = un_lastPulse u.
Proof.
  unfold BKUnitTrySetData. destruct (un_ctx u); [|congruence]. cbv zeta. intros H.
  assert (K : forall (x : bkunit) y, Ok (x, y) = Ok (u', r) -> u' = x) by (intros; congruence).
  repeat match type of H with
  | match ?c with Some _ => _ | None => _ end = Ok _ => destruct c
  | (if ?c then _ else _) = Ok _ => destruct c
  | bind _ _ = Ok _ => apply bind_ok in H; destruct H as (? & _ & H)
  end; apply K in H; subst u'; reflexivity.
Qed.

Lemma set_data_last u type data u' r : BKUnitSetData u type data = Ok (u', r) -> un_lastPulse u' = un_lastPulse u.
Proof.
  unfold BKUnitSetData. intros H. apply bind_ok in H. destruct H as ([u1 r1] & E & H). apply try_last in E.
  destruct (r1 =? 0); [|destruct (_ || _)];
    match type of H with Ok (?x, _) = _ => assert (u' = x) as -> by congruence end; exact E.
Qed.

Lemma range_last u a b u' : BKUnitUpdateSampleRange u a b = Ok u' -> un_lastPulse u' = un_lastPulse u.
Proof.
  unfold BKUnitUpdateSampleRange. cbv zeta. destruct (sm_data (un_sample u)); [|congruence]. intros H.
  repeat (apply bind_ok in H; destruct H as (? & _ & H)).
  match type of H with Ok ?x = _ => assert (u' = x) as -> by congruence end. reflexivity.
Qed.

Lemma sustain_last u a b u' : BKUnitUpdateSampleSustainRange u a b = Ok u' -> un_lastPulse u' = un_lastPulse u.
Proof.
  unfold BKUnitUpdateSampleSustainRange. cbv zeta. destruct (sm_data (un_sample u)); [|congruence]. intros H.
  repeat (apply bind_ok in H; destruct H as (? & _ & H)).
  match type of H with (let (_, _) := ?e in _) = _ => destruct e end.
  match type of H with Ok ?x = _ => assert (u' = x) as -> by congruence end. reflexivity.
Qed.

Lemma ptr_last u attr ptr u' r : BKUnitSetPtr u attr ptr = Ok (u', r) -> un_lastPulse u' = un_lastPulse u.
Proof.
  unfold BKUnitSetPtr. intros H.
  assert (K : forall (x : bkunit) y, Ok (x, y) = Ok (u', r) -> u' = x) by (intros; congruence).
  destruct (_ =? BK_SAMPLE_CALLBACK); [destruct ptr; try discriminate; apply K in H; subst u'; reflexivity|].
  destruct (_ || _).
  { apply bind_ok in H. destruct H as (data & _ & H). apply bind_ok in H. destruct H as ([u1 r1] & E & H).
    apply set_data_last in E. destruct (r1 <? 0); apply K in H; subst u'; exact E. }
  destruct (_ =? BK_SAMPLE_RANGE).
  { destruct (negb _); [apply K in H; subst u'; reflexivity|].
    apply bind_ok in H. destruct H as ([a b] & _ & H). apply bind_ok in H. destruct H as (u1 & E1 & H).
    apply bind_ok in H. destruct H as (u2 & E2 & H). apply K in H. subst u'.
    apply range_last in E1. apply sustain_last in E2. congruence. }
  destruct (_ =? BK_SAMPLE_SUSTAIN_RANGE); [|apply K in H; subst u'; reflexivity].
  destruct (negb _); [apply K in H; subst u'; reflexivity|].
  apply bind_ok in H. destruct H as ([a b] & _ & H). apply bind_ok in H. destruct H as (u1 & E1 & H).
  apply K in H. subst u'. apply sustain_last in E1. exact E1.
Qed.

Lemma event_last u event u' r : unit_data_event u event = Ok (u', r) -> un_lastPulse u' = un_lastPulse u.
Proof.
  unfold unit_data_event. intros H.
  assert (K : forall (x : bkunit) y, Ok (x, y) = Ok (u', r) -> u' = x) by (intros; congruence).
  destruct (sm_data (un_sample u)); [|apply K in H; subst u'; reflexivity].
  assert (C : forall dispose v v' q, BKUnitSampleDataStateCallback dispose v = Ok (v', q) -> un_lastPulse v' = un_lastPulse v).
  { intros dispose v v' q. unfold BKUnitSampleDataStateCallback.
    destruct (_ =? BK_CUSTOM); [apply try_last|]. destruct (_ =? BK_SAMPLE); [apply try_last|]. congruence. }
  destruct event; apply bind_ok in H; destruct H as ([u1 r1] & E & H); apply C in E; apply K in H; subst u'.
  - destruct (r1 <? 0); exact E.
  - exact E.
Qed.

Lemma clear_last u u' : BKUnitClear u = Ok u' -> un_lastPulse u' = un_lastPulse u.
Proof.
  unfold BKUnitClear. cbv zeta. intros H. apply bind_ok in H. destruct H as ([u1 r1] & E1 & H).
  apply bind_ok in H. destruct H as ([u2 r2] & E2 & H). apply set_data_last in E1, E2.
  match type of H with Ok ?x = _ => assert (u' = x) as -> by congruence end.
  match goal with |- un_lastPulse (set_sm ?x _) = _ => change (un_lastPulse u2 = un_lastPulse u) end. congruence.
Qed.

Theorem step_sum fuel u o u' l k : o <> UReset -> ustep fuel u o = Ok (u', l) ->
  sum_values (nth k l []) = lastp u' k - lastp u k.
Proof.
  intros No H.
  assert (Q : forall x, un_lastPulse x = un_lastPulse u -> Ok (x, []) = Ok (u', l) ->
            sum_values (nth k l []) = lastp u' k - lastp u k).
  { intros x Hx E. assert (u' = x /\ l = []) as [-> ->] by (split; congruence).
    unfold lastp. rewrite Hx. destruct k; cbn [nth sum_values fold_right]; lia. }
  destruct o as [attr value|attr ptr|event|t|t|n t| | |]; cbn [ustep] in H.
  - apply bind_ok in H. destruct H as ([u1 r1] & E & H). apply attr_last in E. exact (Q u1 E H).
  - apply bind_ok in H. destruct H as ([u1 r1] & E & H). apply ptr_last in E. exact (Q u1 E H).
  - apply bind_ok in H. destruct H as ([u1 r1] & E & H). apply event_last in E. exact (Q u1 E H).
  - eapply run_sum. exact H.
  - refine (Q _ _ H). reflexivity.
  - refine (Q _ _ H). unfold BKUnitAttach. destruct (un_ctx u); reflexivity.
  - refine (Q _ _ H). unfold BKUnitDetach. destruct (un_ctx u); reflexivity.
  - apply bind_ok in H. destruct H as (u1 & E & H). apply clear_last in E. exact (Q u1 E H).
  - contradiction.
Qed.

Theorem history_telescopes fuel ops k : forall u u' ls, ~ In UReset ops -> uruns fuel u ops = Ok (u', ls) ->
  history_sum k ls = lastp u' k - lastp u k.
Proof.
  induction ops as [|o ops IH]; intros u u' ls No H; cbn [uruns] in H.
  - assert (u' = u /\ ls = []) as [-> ->] by (split; congruence). cbn. lia.
  - apply bind_ok in H. destruct H as ([u1 l] & E & H). apply bind_ok in H. destruct H as ([u2 ls2] & E2 & H).
    assert (u' = u2 /\ ls = l :: ls2) as [-> ->] by (split; congruence).
    apply (step_sum _ _ _ _ _ k) in E; [|intros ->; apply No; left; reflexivity].
    apply IH in E2; [|intros Hi; apply No; right; exact Hi].
    unfold history_sum in *. cbn [fold_right]. rewrite E, E2. lia.
Qed.

(** ** Ranges of values *)

Lemma level_between v p lo hi : 0 <= v <= 32767 -> lo <= p <= hi -> lo <= 0 <= hi -> lo <= level v p <= hi.
Proof.
  intros Hv Hp H0. unfold level. split.
  - apply Z.div_le_lower_bound; [lia|]. nia.
  - apply Z.lt_succ_r. apply Z.div_lt_upper_bound; [lia|]. nia.
Qed.

Definition between_b (lo hi v : Z) : bool := (lo <=? v) && (v <=? hi).
Lemma aget_between (l : list Z) lo hi i v : forallb (between_b lo hi) l = true -> aget l i = Ok v -> lo <= v <= hi.
Proof.
  intros H E. pose proof (aget_bounds _ _ _ E) as Hb. rewrite (aget_nth _ _ 0) in E by exact Hb. injection E as <-.
  rewrite forallb_forall in H. specialize (H (nth (Z.to_nat i) l 0)).
  assert (In (nth (Z.to_nat i) l 0) l) by (apply nth_In; lia). specialize (H H0). unfold between_b in H. lia.
Qed.

Lemma square_between u lo hi row : un_duty u <= 8 /\ lo <= 0 /\ 32767 <= hi \/ 9 <= un_duty u /\ lo <= -32767 /\ 0 <= hi ->
  -2147483648 <= un_duty u <= 2147483647 ->
  aget squarePhases (s32 (un_duty u)) = Ok row -> forall i v, aget row i = Ok v -> lo <= v <= hi.
Proof.
  intros Hd Hr E i v Ev. rewrite s32_id in E by exact Hr.
  pose proof (aget_bounds _ _ _ E) as Hb. rewrite (aget_nth _ _ []) in E by exact Hb. injection E as <-.
  change (Z.of_nat (length squarePhases)) with 17 in Hb.
  assert (C : forallb (fun d => if (d <=? 8)%nat then forallb (between_b 0 32767) (nth d squarePhases [])
                                else forallb (between_b (-32767) 0) (nth d squarePhases [])) (seq 0 17) = true)
    by reflexivity.
  rewrite forallb_forall in C. specialize (C (Z.to_nat (un_duty u))).
  assert (Hin : In (Z.to_nat (un_duty u)) (seq 0 17)) by (apply in_seq; lia). specialize (C Hin).
  destruct (Nat.leb_spec (Z.to_nat (un_duty u)) 8).
  - pose proof (aget_between _ _ _ _ _ C Ev). lia.
  - pose proof (aget_between _ _ _ _ _ C Ev). lia.
Qed.

Lemma frames_between frames lo hi i v : Forall (fun v => lo <= v <= hi) frames -> aget frames i = Ok v -> lo <= v <= hi.
Proof.
  intros H E. pose proof (aget_bounds _ _ _ E) as Hb. rewrite (aget_nth _ _ 0) in E by exact Hb. injection E as <-.
  rewrite Forall_forall in H. apply H. apply nth_In. lia.
Qed.

Lemma wave_step_between u lo hi phase wc p ph wc' : wave_range u lo hi -> 1 <= un_duty u <= 15 ->
  un_waveform u <> 0 -> wave_step u phase wc = Ok (p, ph, wc') -> lo <= p <= hi.
Proof.
  intros R Hd Hw H. unfold wave_step in H. cbv zeta in H.
  destruct (Z.eqb_spec (un_waveform u) BK_SQUARE) as [E|E].
  { apply bind_ok in H. destruct H as (row & E1 & H). apply bind_ok in H. destruct H as (q & E2 & H).
    injection H as <- _ _. refine (square_between u lo hi row _ _ E1 _ _ E2); [|lia].
    destruct R as [R|[R|[R|[R|[R|R]]]]]; try rewrite E in R; wave_consts; lia. }
  destruct (Z.eqb_spec (un_waveform u) BK_TRIANGLE) as [E2|E2].
  { apply bind_ok in H. destruct H as (q & Eq & H). injection H as <- _ _.
    pose proof (aget_between trianglePhases (-16384) 16384 _ _ eq_refl Eq).
    destruct R as [R|[R|[R|[R|[R|R]]]]]; try rewrite E2 in R; wave_consts; lia. }
  destruct (Z.eqb_spec (un_waveform u) BK_NOISE) as [E3|E3].
  { destruct (wrap_step _ _ _ _). destruct (noise_step z0) as [ph1 q] eqn:En. injection H as <- _ _.
    assert (Hq : -16383 <= q <= 16383).
    { unfold noise_step in En. cbv zeta in En. destruct (_ =? 0); injection En as _ <-; cbv; split; discriminate. }
    destruct R as [R|[R|[R|[R|[R|R]]]]]; try rewrite E3 in R; wave_consts; lia. }
  destruct (Z.eqb_spec (un_waveform u) BK_SAWTOOTH) as [E4|E4].
  { apply bind_ok in H. destruct H as (q & Eq & H). injection H as <- _ _.
    pose proof (aget_between sawtoothPhases 0 32766 _ _ eq_refl Eq).
    destruct R as [R|[R|[R|[R|[R|R]]]]]; try rewrite E4 in R; wave_consts; lia. }
  destruct (Z.eqb_spec (un_waveform u) BK_SINE) as [E5|E5].
  { apply bind_ok in H. destruct H as (q & Eq & H). injection H as <- _ _.
    pose proof (aget_between sinePhases (-32767) 32767 _ _ eq_refl Eq).
    assert (-16384 <= Z.quot q 2 <= 16384) by (Z.quot_rem_to_equations; lia).
    destruct R as [R|[R|[R|[R|[R|R]]]]]; try rewrite E5 in R; wave_consts; lia. }
  destruct (wrap_step _ _ _ _) as [wc1 ph1].
  destruct (sm_frames (un_sample u)) as [[frames base]|] eqn:Ef; [|discriminate].
  apply bind_ok in H. destruct H as (q & Eq & H). injection H as <- _ _.
  destruct R as [[R _]|[[R _]|[[R _]|[[R _]|[[_ [_ R]]|[R _]]]]]]; try contradiction.
  - destruct R as [R|[R|R]]; contradiction.
  - refine (frames_between frames lo hi _ _ _ Eq). apply (R frames base). congruence.
Qed.

Definition fits (l : list (Z * Z)) : Prop := Forall (fun tp => -32767 <= snd tp <= 32767) l.

Lemma fits_added l : fits l -> sum_added l = sum_values l.
Proof.
  intros H. induction H as [|[t v] l Hv H IH]; [reflexivity|]. unfold sum_added, sum_values in *.
  cbn [fold_right snd] in *. rewrite IH, s16_id by lia. reflexivity.
Qed.

Lemma chan_fits v lo hi raw : 0 <= v <= 32767 -> lo <= 0 <= hi -> hi - lo <= 32767 ->
  Forall (fun tp => lo <= snd tp <= hi) raw -> forall last, lo <= last <= hi ->
  fits (chan_deltas v last raw) /\ lo <= last_level v last raw <= hi.
Proof.
  intros Hv H0 Hw H. induction H as [|[t p] raw Hp H IH]; intros last Hl.
  - split; [constructor|exact Hl].
  - cbn [snd] in Hp. pose proof (level_between v p lo hi Hv Hp H0) as L.
    destruct (IH (level v p) L) as [I1 I2]. split; [|exact I2].
    cbn [chan_deltas]. constructor; [cbn [snd]; lia|exact I1].
Qed.

Lemma wave_raw_between fuel : forall u lo hi endTime time phase wc t ph wc' raw,
  wave_range u lo hi -> 1 <= un_duty u <= 15 -> un_waveform u <> 0 ->
  wave_raw fuel u endTime time phase wc = Ok (t, ph, wc', raw) -> Forall (fun tp => lo <= snd tp <= hi) raw.
Proof.
  induction fuel as [|fuel IH]; intros * R Hd Hw H; cbn [wave_raw] in H; destruct (time <? endTime).
  - discriminate.
  - injection H as <- <- <- <-. constructor.
  - apply bind_ok in H. destruct H as ([[p ph1] wc1] & E & H). apply bind_ok in H. destruct H as ([[[t2 ph2] wc2] raw2] & E2 & H).
    injection H as <- <- <- <-. constructor.
    + cbn [snd]. eapply wave_step_between; eassumption.
    + eapply IH; [| | |exact E2]; assumption.
  - injection H as <- <- <- <-. constructor.
Qed.

Lemma wave_range_zero u lo hi : wave_range u lo hi -> lo <= 0 <= hi.
Proof. intros [R|[R|[R|[R|[R|R]]]]]; lia. Qed.

Lemma waveform_fits fuel u lo hi n t u' t' l : unit_wf u -> BK_SQUARE <= un_waveform u <= BK_CUSTOM ->
  wave_range u lo hi -> hi - lo <= 32767 -> (forall k, lo <= lastp u k <= hi) ->
  BKUnitRunWaveform fuel u n t = Ok (u', t', l) ->
  (forall k, fits (nth k l [])) /\ (forall k, lo <= lastp u' k <= hi).
Proof.
  intros W Hw R Hd Hl H. revert H. unfold BKUnitRunWaveform. destruct (negb (un_mute u =? 0)).
  - intros H. assert (u' = u /\ l = repeat [] (Z.to_nat n)) as [-> ->] by (split; congruence).
    split; [|exact Hl]. intros k. rewrite nth_repeat_nil. constructor.
  - intros H. change 0 with (Z.of_nat 0) in H at 1. apply wave_channels_char in H.
    destruct H as (m & C & L & LL & Pn & N). cbv zeta in *. cbn [Nat.add] in *.
    assert (F : Forall (fun tp => lo <= snd tp <= hi) match m with Some (_, _, _, raw) => raw | None => [] end).
    { destruct m as [[[[t0 ph] wc] raw]|]; [|constructor]. destruct C as (C & _). unfold run_raw in C.
      apply bind_ok in C. destruct C as ([[[t1 ph1] wc1] raw1] & C & E). assert (raw1 = raw) as -> by congruence.
      eapply wave_raw_between; [exact R|apply W| |exact C]. wave_consts. lia. }
    pose proof (wave_range_zero u lo hi R) as H0. split.
    + intros k. destruct (Nat.lt_ge_cases k (Z.to_nat n)) as [Hk|Hk].
      * rewrite (N k Hk). destruct (vol u k =? 0); [constructor|].
        apply (chan_fits (vol u k) lo hi); auto. apply vol_range. exact W.
      * rewrite nth_overflow by lia. constructor.
    + intros k. rewrite Pn. destruct (_ && _ && _); [|apply Hl].
      apply (chan_fits (vol u k) lo hi); auto. apply vol_range. exact W.
Qed.

Lemma sample_channels_fits n : forall i u idx last d lo hi, sample_channels n i u idx = Ok (last, d) -> 0 <= i ->
  (forall frames base, sm_frames (un_sample u) = Some (frames, base) -> Forall (fun v => lo <= v <= hi) frames) ->
  lo <= 0 <= hi -> hi - lo <= 32767 -> Forall (fun v => 0 <= v <= 32767) (un_volume u) ->
  (forall k, lo <= lastp u k <= hi) ->
  Forall (fun v => -32767 <= v <= 32767) d /\ (forall k, lo <= nth k last 0 <= hi).
Proof.
  induction n as [|n IH]; intros * H Hi HF H0 Hw Hv Hl; cbn [sample_channels] in H.
  - injection H as <- <-. split; [constructor|exact Hl].
  - destruct (sm_frames (un_sample u)) as [[frames base]|] eqn:Ef; [|discriminate H].
    apply bind_ok in H. destruct H as (v & Ev & H). apply bind_ok in H. destruct H as (p & Ep & H).
    apply bind_ok in H. destruct H as (lp & El & H). apply bind_ok in H. destruct H as ([dl cd] & Ed & H).
    apply bind_ok in H. destruct H as (la & Ea & H). apply bind_ok in H. destruct H as ([la' l'] & Er & H).
    injection H as <- <-.
    pose proof (aget_bounds _ _ _ Ev) as Hbv. rewrite (aget_nth _ _ 0) in Ev by exact Hbv. injection Ev as Ev.
    assert (Hvv : 0 <= v <= 32767) by (rewrite <- Ev; rewrite Forall_forall in Hv; apply Hv; apply nth_In; lia).
    apply (frames_between _ lo hi) in Ep; [|exact (HF frames base eq_refl)].
    pose proof (aget_bounds _ _ _ El) as Hb. rewrite (aget_nth _ _ 0) in El by exact Hb. injection El as El.
    fold (lastp u (Z.to_nat i)) in El. rewrite aset_ok in Ea by exact Hb. injection Ea as <-.
    apply pulse_delta_inv in Ed. destruct Ed as [-> ->].
    pose proof (level_between v p lo hi Hvv Ep H0) as Lv. pose proof (Hl (Z.to_nat i)) as Hli. rewrite El in Hli.
    destruct (IH _ _ _ _ _ lo hi Er ltac:(lia)) as [I1 I2]; auto.
    + intros f b Hf. apply (HF f b). change (sm_frames (un_sample u) = Some (f, b)) in Hf. congruence.
    + intros k. unfold lastp. ucbn. destruct (Nat.eq_dec k (Z.to_nat i)) as [-> |N].
      * rewrite nth_upd_eq by lia. exact Lv.
      * rewrite nth_upd_neq by auto. apply Hl.
    + split; [constructor; [lia|exact I1]|exact I2].
Qed.

Lemma zip_fits t d : forall l, Forall (fun v => -32767 <= v <= 32767) d -> Forall fits l -> Forall fits (zip_pulses t d l).
Proof.
  induction d as [|v d IH]; intros [|p l] Hd Hl; cbn [zip_pulses]; auto.
  inversion Hd; subst. inversion Hl; subst. constructor; [constructor; auto|apply IH; assumption].
Qed.

Lemma sample_fits fuel : forall u lo hi n c time t u' t' l,
  sample_loop fuel u n c time t = Ok (u', t', l) -> -2147483648 <= time <= 2147483647 ->
  (forall frames base, sm_frames (un_sample u) = Some (frames, base) -> Forall (fun v => lo <= v <= hi) frames) ->
  lo <= 0 <= hi -> hi - lo <= 32767 -> Forall (fun v => 0 <= v <= 32767) (un_volume u) ->
  (forall k, lo <= lastp u k <= hi) ->
  Forall fits l /\ (forall k, lo <= lastp u' k <= hi).
Proof.
  assert (Rep : forall n, Forall fits (repeat [] n)).
  { intros n. apply Forall_forall. intros x Hx. apply repeat_spec in Hx. subst x. constructor. }
  induction fuel as [|fuel IH]; intros * H Ht HF H0 Hw Hv Hl; cbn [sample_loop] in H; destruct (u32 time <? t).
  - discriminate.
  - assert (u' = u /\ l = repeat [] (Z.to_nat n)) as [-> ->] by (split; congruence). auto.
  - cbv zeta in H. apply bind_ok in H. destruct H as ([last d] & Ec & H).
    apply bind_ok in H. destruct H as (at_ & _ & H). apply bind_ok in H. destruct H as (u1 & E1 & H).
    apply bind_ok in H. destruct H as ([u2 halt] & E2 & H).
    pose proof (sample_channels_fits _ _ _ _ _ _ lo hi Ec ltac:(lia) HF H0 Hw Hv Hl) as [D1 D2].
    assert (L2 : un_lastPulse u2 = last /\ un_volume u2 = un_volume u /\ sm_frames (un_sample u2) = sm_frames (un_sample u)).
    { pose proof (same_last_advance _ _ E1) as A1. apply advance_frame in E1. destruct E1 as (F1 & _).
      destruct F1 as (_ & _ & _ & _ & _ & Fv & _ & _ & _ & _ & _ & _ & _ & _ & _ & _ & _ & _ & _ & _ & _ & Ff).
      destruct ((_ <? 0) || _).
      - pose proof (same_last_reset _ _ _ _ E2) as A2. apply reset_frame in E2. destruct E2 as (F2 & _).
        destruct F2 as (_ & _ & _ & _ & _ & Gv & _ & _ & _ & _ & _ & _ & _ & _ & _ & _ & _ & _ & _ & _ & _ & Gf).
        rewrite A2, A1, Gv, Fv, Gf, Ff. auto.
      - assert (u2 = u1) as -> by congruence. rewrite A1, Fv, Ff. auto. }
    destruct L2 as (L2 & V2 & F2).
    destruct halt.
    + match type of H with Ok (?x, _, ?y) = _ => assert (u' = x /\ l = y) as [-> ->] by (split; congruence) end.
      split; [apply zip_fits; auto|]. intros k. unfold lastp. rewrite L2. apply D2.
    + apply bind_ok in H. destruct H as (next & En & H). apply bind_ok in H. destruct H as ([[u3 t3] l3] & E3 & H).
      match type of H with Ok (?x, _, ?y) = _ => assert (u' = x /\ l = y) as [-> ->] by (split; congruence) end.
      apply chk32_inv in En. destruct En as [-> En].
      destruct (sustain_frame c u2) as (F3 & _).
      destruct F3 as (_ & _ & _ & _ & _ & Sv & _ & _ & _ & _ & _ & _ & _ & _ & _ & _ & _ & _ & _ & _ & _ & Sf).
      destruct (IH _ lo hi _ _ _ _ _ _ _ E3 En) as [I1 I2]; auto.
      * rewrite Sf, F2. exact HF.
      * rewrite Sv, V2. exact Hv.
      * intros k. unfold lastp. rewrite same_last_sustain, L2. apply D2.
      * split; [apply zip_fits; auto|exact I2].
  - assert (u' = u /\ l = repeat [] (Z.to_nat n)) as [-> ->] by (split; congruence). auto.
Qed.

Lemma nth_fits l k : Forall fits l -> fits (nth k l []).
Proof.
  intros H. destruct (Nat.lt_ge_cases k (length l)) as [Hk|Hk].
  - rewrite Forall_forall in H. apply H. apply nth_In. exact Hk.
  - rewrite nth_overflow by exact Hk. constructor.
Qed.

Theorem run_fits fuel u lo hi t u' l : unit_wf u -> wave_range u lo hi -> hi - lo <= 32767 ->
  (forall k, lo <= lastp u k <= hi) -> BKUnitRun fuel u t = Ok (u', l) ->
  (forall k, fits (nth k l [])) /\ (forall k, lo <= lastp u' k <= hi).
Proof.
  intros W R Hd Hl. unfold BKUnitRun. destruct (un_ctx u) as [n|]; [|discriminate]. cbv zeta. intros H.
  apply bind_ok in H. destruct H as ([[u1 t1] l1] & E & H).
  match type of H with Ok (?x, ?y) = _ => assert (u' = x /\ l = y) as [-> ->] by (split; congruence) end.
  match goal with |- context [set_time u1 ?x] => change (lastp (set_time u1 x)) with (lastp u1) end.
  assert (Idle : forall x, Ok (u, x, repeat [] (Z.to_nat n)) = Ok (u1, t1, l1) ->
            (forall k, fits (nth k l1 [])) /\ (forall k, lo <= lastp u1 k <= hi)).
  { intros x Hx. assert (u1 = u /\ l1 = repeat [] (Z.to_nat n)) as [-> ->] by (split; congruence).
    split; [|exact Hl]. intros k. rewrite nth_repeat_nil. constructor. }
  destruct (un_period u =? 0); [exact (Idle _ E)|].
  destruct ((BK_SQUARE <=? un_waveform u) && (un_waveform u <=? BK_CUSTOM)) eqn:Ew.
  { eapply waveform_fits; [exact W| |exact R|exact Hd|exact Hl|exact E]. lia. }
  destruct (Z.eqb_spec (un_waveform u) BK_SAMPLE) as [Es|Es]; [|exact (Idle _ E)].
  revert E. unfold BKUnitRunSample. destruct (negb _); [apply Idle|]. intros E.
  apply bind_ok in E. destruct E as (d & _ & E). apply bind_ok in E. destruct E as (len & _ & E).
  destruct (len <? 2); [exact (Idle _ E)|].
  apply bind_ok in E. destruct E as ([[u2 t2] l2] & E2 & E).
  assert (u1 = u2 /\ l1 = l2) as [-> ->] by (split; congruence).
  assert (HF : lo <= 0 <= hi /\ (forall frames base, sm_frames (un_sample u) = Some (frames, base) ->
                                  Forall (fun v => lo <= v <= hi) frames)).
  { destruct R as [[R _]|[[R _]|[[R _]|[[R _]|[[_ [R0 R]]|[R _]]]]]]; try (rewrite Es in R; wave_consts; lia).
    split; assumption. }
  destruct HF as [R0 HF].
  destruct (sample_fits _ _ lo hi _ _ _ _ _ _ _ E2 (s32_range _) HF R0 Hd) as [I1 I2]; auto.
  - apply W.
  - split; [intros k; apply nth_fits; exact I1|exact I2].
Qed.
