(** Properties of units: C34-C43. *)
From Verif Require Import CInt CIntFacts DataModel UnitModel UnitSpec UnitProofs UnitProofs2 UnitProofs3 UnitInv UnitInv2 UnitInv3
  UnitNoise UnitProofs4 UnitProofs5.
Ltac Zify.zify_post_hook ::= idtac.

(** A history of a new unit. *)
Definition history (fuel : nat) (waveform : Z) (ops : list uop) : res (bkunit * list (list (list (Z * Z)))) :=
  let* u := BKUnitInit waveform in uruns fuel u ops.
Definition unit_after (waveform : Z) (ops : list uop) : bkunit :=
  match history 5000 waveform ops with Ok (u, _) => u | Err _ => unit0 end.

(** Every history starts with a safe unit, and stays with one if it is careful. *)
Lemma history_unit fuel waveform ops : Forall uop_ok ops ->
  (forall u, BKUnitInit waveform = Ok u -> all_steps (fun u o => uop_careful u o /\ uop_timely fuel u o) fuel u ops) ->
  exists u ls, history fuel waveform ops = Ok (u, ls) /\ unit_safe u.
Proof.
  intros H A. destruct (init_safe waveform) as (u & E & S1). specialize (A u E).
  destruct (history_safe fuel ops u S1 H A) as (u' & ls & E' & S2).
  exists u', ls. split; [|exact S2]. unfold history. rewrite E. exact E'.
Qed.

(** 100 frames of one channel. *)
Definition ramp : wdata := mk_wdata 100 1 (map (fun i => 300 * Z.of_nat i) (seq 0 100)).

Definition plain : list uop :=
  [UAttach 2 0; UAttr BK_PERIOD 100; UAttr BK_VOLUME 20000; UAttr BK_VOLUME_0 0; URun 1000; UEnd 1000].
Definition sampled : list uop :=
  [UAttach 2 0; UPtr BK_SAMPLE (PData ramp); UAttr BK_PERIOD 100; UAttr BK_VOLUME 20000; URun 1000; UEnd 1000].

(** [all_steps] of a concrete history. *)
Ltac steps := vm_compute; repeat split; intros; subst; try discriminate; auto; try lia;
  repeat match goal with H : _ \/ _ |- _ => destruct H end; try discriminate; try lia;
  try (left; discriminate); try (right; reflexivity).

Lemma ramp_ok : wdata_ok ramp.
Proof.
  repeat split; try (vm_compute; congruence). apply Forall_forall. intros x Hx. apply in_map_iff in Hx.
  destruct Hx as (i & <- & Hi). apply in_seq in Hi. unfold is_frame. lia.
Qed.
Lemma plain_ok : Forall uop_ok plain.
Proof. repeat constructor; cbv; congruence. Qed.
Lemma sampled_ok : Forall uop_ok sampled.
Proof. repeat (apply Forall_cons); try apply Forall_nil; cbn [uop_ok ptr_ok]; try (repeat split; auto; fail).
  - split; [lia|reflexivity].
  - split; [reflexivity|]. split; [auto|]. split; [auto|exact ramp_ok].
Qed.

Lemma plain_safe waveform : waveform = BK_SQUARE \/ waveform = BK_NOISE -> unit_safe (unit_after waveform plain).
Proof.
  intros Hw. destruct (history_unit 5000 waveform plain plain_ok) as (u & ls & E & S1).
  - intros u E. destruct Hw as [-> | ->]; vm_compute in E; injection E as <-; steps.
  - unfold unit_after. rewrite E. exact S1.
Qed.
Lemma sampled_safe : unit_safe (unit_after BK_SQUARE sampled).
Proof.
  destruct (history_unit 5000 BK_SQUARE sampled sampled_ok) as (u & ls & E & S1).
  - intros u E. vm_compute in E. injection E as <-. steps.
  - unfold unit_after. rewrite E. exact S1.
Qed.

(** The findings below are about histories that are within the limits of the times. *)
Definition in_time (u : bkunit) (o : uop) : Prop :=
  match o with
  | URun t => un_ctx u <> None /\ t + un_period u < 4294967296 /\ t + 1048576 < 2147483648
  | _ => True
  end.

Ltac ops_ok := repeat (apply Forall_cons); try apply Forall_nil; cbn [uop_ok ptr_ok];
  first [exact I | split; [lia|reflexivity] | reflexivity
        | split; [reflexivity|]; split; [tauto|]; split; [tauto|]; first [exact ramp_ok | split; reflexivity]
        | split; [reflexivity|]; split; [tauto|exact I] | split; reflexivity].

(** * C34: attributes *)

Theorem attributes_partial u attr value v : unit_safe u -> in_s32 value = true -> attr_value u attr value v ->
  exists u', BKUnitSetAttr u attr value = Ok (u', 0) /\ BKUnitGetAttr u' attr = Ok (0, Some v) /\
    forall other, ~ attr_touches attr other -> BKUnitGetAttr u' other = BKUnitGetAttr u other.
Proof. intros [W _]. apply attr_readback. exact W. Qed.
Example attributes_example : attr_value (unit_after BK_SQUARE plain) BK_PHASE 999 15 /\
  attr_value (unit_after BK_SQUARE sampled) BK_PHASE (-1) 0 /\ ~ attr_touches BK_PHASE BK_DUTY_CYCLE.
Proof.
  split; [|split].
  - exact (av_phase (unit_after BK_SQUARE plain) 999 ltac:(vm_compute; discriminate) ltac:(vm_compute; discriminate)).
  - exact (av_sample_start (unit_after BK_SQUARE sampled) (-1) eq_refl ltac:(vm_compute; discriminate) ltac:(lia)).
  - unfold attr_touches. attr_consts. lia.
Qed.

(** Without any phases (a sample range without frames) there is no largest phase:
    only negative values are clamped. *)
Theorem attributes_no_phases u value : in_s32 value = true -> phases u = 0 ->
  exists u', BKUnitSetAttr u BK_PHASE value = Ok (u', 0) /\ BKUnitGetAttr u' BK_PHASE = Ok (0, Some (Z.max 0 value)) /\
    forall other, other <> BK_PHASE -> BKUnitGetAttr u' other = BKUnitGetAttr u other.
Proof.
  intros Hs P. apply in_s32_range in Hs.
  assert (C : BKUnitSetAttr u BK_PHASE value = Ok (set_phase u (Z.max 0 value), 0)).
  { change (BKUnitSetAttr u BK_PHASE value) with
      (if negb (un_waveform u =? BK_SAMPLE) then Ok (set_phase u (BKClamp value 0 (u32 (ph_count (un_phase u) - 1))), 0)
       else Ok (set_phase u (BKClamp (if value <? 0 then if sm_end (un_sample u) >? sm_offset (un_sample u) then 0
                              else s32 (u32 (sm_length (un_sample u) - 1)) else value) 0 (u32 (sm_length (un_sample u) - 1))), 0)).
    unfold phases in P. destruct (un_waveform u =? BK_SAMPLE); cbn [negb]; rewrite P; change (u32 (0 - 1)) with 4294967295; change (s32 4294967295) with (-1).
    - rewrite clamp_minmax by lia. do 3 f_equal. destruct (value <? 0) eqn:N; [destruct (_ >? _)|]; lia.
    - rewrite clamp_minmax by lia. do 3 f_equal. lia. }
  rewrite C. eexists. split; [reflexivity|]. split.
  - change (BKUnitGetAttr (set_phase u (Z.max 0 value)) BK_PHASE) with (@Ok (Z * option Z) (0, Some (s32 (Z.max 0 value)))). rewrite s32_id by lia. reflexivity.
  - intros other No. apply get_attr_same. unfold same_attr, phases. repeat split; intros; try reflexivity. contradiction.
Qed.
Example no_phases_example : let u := unit_after BK_SQUARE (sampled ++ [UPtr BK_SAMPLE_RANGE (PRange 2 2)]) in
  phases u = 0 /\ un_waveform u = BK_SAMPLE /\ in_s32 1000 = true.
Proof. vm_compute. auto. Qed.

(** [BK_VOLUME] sets the volume of all channels and nothing else. *)
Theorem attributes_volume u value : exists u', BKUnitSetAttr u BK_VOLUME value = Ok (u', 0) /\
  (forall k, 0 <= k < 8 -> BKUnitGetAttr u' (BK_VOLUME_0 + k) = Ok (0, Some (Z.max 0 (Z.min 32767 value)))) /\
  forall other, ~ BK_VOLUME_0 <= other <= BK_VOLUME_7 -> BKUnitGetAttr u' other = BKUnitGetAttr u other.
Proof. apply volume_all. Qed.

(** What cannot be set is refused and changes nothing. *)
Theorem attributes_refused u attr value : ~ settable attr -> BKUnitSetAttr u attr value = Ok (u, BK_INVALID_ATTRIBUTE).
Proof. apply attr_unknown. Qed.
Theorem waveforms_refused u value : ~ is_table_wave value -> BKUnitSetAttr u BK_WAVEFORM value = Ok (u, BK_INVALID_VALUE).
Proof. apply waveform_unknown. Qed.
Example refused_example : ~ settable BK_NUM_PHASES /\ ~ is_table_wave BK_CUSTOM.
Proof. unfold settable, is_table_wave. attr_consts. wave_consts. lia. Qed.

(** The smallest integer has no absolute value. *)
Theorem attributes_refuted : exists u value, unit_safe u /\ in_s32 value = true /\
  BKUnitSetAttr u BK_PERIOD value = Err EOverflow /\ BKUnitSetAttr u BK_SAMPLE_PERIOD value = Err EOverflow.
Proof. exists (unit_after BK_SQUARE plain), (-2147483648). split; [apply plain_safe; auto|]. vm_compute. auto. Qed.

(** * C35: wave tables *)

(** [Err EBounds] is a read outside of a table.  Every history without the uses listed
    at [uop_careful] avoids it, and every other failure, and at the end the phase points
    into the table ([unit_safe]). *)
Theorem tables_partial fuel waveform ops : Forall uop_ok ops ->
  (forall u, BKUnitInit waveform = Ok u -> all_steps (fun u o => uop_careful u o /\ uop_timely fuel u o) fuel u ops) ->
  exists u ls, history fuel waveform ops = Ok (u, ls) /\
    (BK_SQUARE <= un_waveform u <= BK_CUSTOM -> phase_good u (ph_phase (un_phase u))).
Proof.
  intros H A. destruct (history_unit fuel waveform ops H A) as (u & ls & E & S1). exists u, ls. split; [exact E|].
  intros Hw. destruct S1 as (_ & S1 & _). exact (proj2 (S1 Hw)).
Qed.
Example tables_example : Forall uop_ok plain /\
  (forall u, BKUnitInit BK_SQUARE = Ok u -> all_steps (fun u o => uop_careful u o /\ uop_timely 5000 u o) 5000 u plain).
Proof. split; [exact plain_ok|]. intros u E. vm_compute in E. injection E as <-. steps. Qed.

(** Release after a sample with sustain range was replaced by a waveform: the flag
    stays, and the release moves the phase to the end of the sustain range. *)
Definition release_history : list uop :=
  [UAttach 1 0; UPtr BK_SAMPLE (PData ramp); UPtr BK_SAMPLE_SUSTAIN_RANGE (PRange 50 60);
   UAttr BK_SAMPLE_IMMED_RELEASE 1; UAttr BK_WAVEFORM BK_SQUARE; UAttr BK_PERIOD 100; UAttr BK_VOLUME 32767;
   UAttr BK_FLAG_RELEASE 1; URun 1000].
Theorem tables_refuted : exists waveform ops, Forall uop_ok ops /\
  (forall u, BKUnitInit waveform = Ok u -> all_steps in_time 5000 u ops) /\
  history 5000 waveform ops = Err EBounds.
Proof.
  exists BK_SQUARE, release_history. split; [ops_ok|].
  split; [|vm_compute; reflexivity]. intros u E. vm_compute in E. injection E as <-. steps.
Qed.

(** * C36: noise *)

Lemma noise_lfsr n p : noise_state p -> noise_iter n p = Nat.iter n lfsr_next p.
Proof.
  intros H. induction n as [|n IH]; [reflexivity|].
  change (noise_iter (S n) p) with (noise_next (noise_iter n p)). change (Nat.iter (S n) lfsr_next p) with (lfsr_next (Nat.iter n lfsr_next p)). rewrite <- IH.
  apply lfsr_noise. pose proof (iter_state n p H) as Q. unfold noise_state in Q. lia.
Qed.

(** The generator is the 16-bit shift register, whose states other than 0 form one cycle
    of length 65535. *)
Theorem noise_cycle p : 1 <= p <= 65535 ->
  (forall n, 1 <= Nat.iter n lfsr_next p <= 65535) /\
  Nat.iter (Z.to_nat 65535) lfsr_next p = p /\
  (forall n, 0 < Z.of_nat n < 65535 -> Nat.iter n lfsr_next p <> p) /\
  (forall q, 1 <= q <= 65535 -> exists n, Z.of_nat n < 65535 /\ Nat.iter n lfsr_next p = q).
Proof.
  intros H. assert (Hp : noise_state p) by (unfold noise_state; lia).
  destruct (noise_period p Hp) as [N1 N2]. split; [|split; [|split]].
  - intros n. rewrite <- noise_lfsr by exact Hp. pose proof (iter_state n p Hp) as Q. unfold noise_state in Q. lia.
  - rewrite <- noise_lfsr by exact Hp. exact N1.
  - intros n Hn. rewrite <- noise_lfsr by exact Hp. apply N2. pose proof round_z as R. clear - Hn R. lia.
  - intros q Hq. destruct (noise_visits p q Hp) as (n & Hn & E); [unfold noise_state; lia|].
    exists n. split; [|rewrite <- noise_lfsr by exact Hp; exact E]. pose proof round_z as R. clear - Hn R. lia.
Qed.
Example noise_cycle_example : 1 <= 19009 <= 65535 /\ lfsr_next 19009 = 42272.
Proof. split; [lia|reflexivity]. Qed.

(** A run without phase wrap makes one step for every value, starting from 19009 if the
    phase is 0, and the value is given by the bit shifted in. *)
Theorem noise_run fuel u t u' l n : unit_safe u -> un_ctx u = Some n -> un_waveform u = BK_NOISE ->
  ph_wrap (un_phase u) = 0 -> BKUnitRun fuel u t = Ok (u', l) ->
  exists raw, let start := if ph_phase (un_phase u) =? 0 then 19009 else ph_phase (un_phase u) in
    (forall k, (k < Z.to_nat n)%nat -> vol u k <> 0 -> nth k l [] = chan_deltas (vol u k) (lastp u k) raw) /\
    (forall i, (i < length raw)%nat ->
       snd (nth i raw (0, 0)) = if Nat.iter (S i) lfsr_next start <? 32768 then -16383 else 16383) /\
    (raw <> [] -> ph_phase (un_phase u') = Nat.iter (length raw) lfsr_next start).
Proof.
  intros U Hn Hw Hwr. pose proof U as [W [Sf _]]. wf_destruct W.
  assert (Hph : 0 <= ph_phase (un_phase u) < 65536).
  { destruct Sf as [_ G]; [rewrite Hw; wave_consts; lia|]. unfold phase_good in G. rewrite Hw in G.
    unfold wave_length in G. wave_consts. cbn in G. lia. }
  unfold BKUnitRun. rewrite Hn. cbv zeta. intros H.
  apply bind_ok in H. destruct H as ([[u1 t1] l1] & E & H).
  assert (u' = set_time u1 (if t1 <? t then t else t1) /\ l = l1) as [-> ->] by (split; congruence). clear H.
  change (un_phase (set_time u1 (if t1 <? t then t else t1))) with (un_phase u1).
  set (start := if ph_phase (un_phase u) =? 0 then 19009 else ph_phase (un_phase u)).
  assert (Hst : noise_state start) by (unfold start, noise_state; destruct (Z.eqb_spec (ph_phase (un_phase u)) 0); lia).
  assert (Idle : forall x, Ok (u, x, repeat [] (Z.to_nat n)) = Ok (u1, t1, l1) ->
    exists raw : list (Z * Z), (forall k, (k < Z.to_nat n)%nat -> vol u k <> 0 -> nth k l1 [] = chan_deltas (vol u k) (lastp u k) raw) /\
    (forall i, (i < length raw)%nat ->
       snd (nth i raw (0, 0)) = if Nat.iter (S i) lfsr_next start <? 32768 then -16383 else 16383) /\
    (raw <> [] -> ph_phase (un_phase u1) = Nat.iter (length raw) lfsr_next start)).
  { intros x Hx. assert (u1 = u /\ l1 = repeat [] (Z.to_nat n)) as [-> ->] by (split; congruence).
    exists []. split; [|split].
    - intros k _ _. rewrite nth_repeat_nil. reflexivity.
    - intros i Hi. cbn [length] in Hi. lia.
    - intros C. contradiction. }
  destruct (un_period u =? 0); [exact (Idle _ E)|].
  rewrite Hw in E. change ((BK_SQUARE <=? BK_NOISE) && (BK_NOISE <=? BK_CUSTOM)) with true in E. cbn iota in E.
  revert E. unfold BKUnitRunWaveform. destruct (negb _); [apply Idle|]. intros E.
  change 0 with (Z.of_nat 0) in E at 1. apply wave_channels_char in E.
  destruct E as (m & C & _ & _ & _ & N). cbv zeta in N. cbn [Nat.add] in C, N.
  destruct m as [[[[t0 ph] wc] raw]|].
  - destruct C as (C & _ & _ & C2). unfold run_raw in C.
    apply bind_ok in C. destruct C as ([[[a b] c] r] & C & Er).
    assert (b = ph /\ r = raw) as [-> ->] by (split; congruence).
    assert (Es : start_phase u (ph_phase (un_phase u)) = start).
    { unfold start_phase, start. rewrite Hw. reflexivity. }
    rewrite Es in C. apply wave_raw_noise in C; [|exact Hw|exact Hwr]. destruct C as (C1 & _ & C3).
    exists raw. split; [|split].
    + intros k Hk Hv. rewrite (N k Hk). destruct (Z.eqb_spec (vol u k) 0); [contradiction|reflexivity].
    + intros i Hi. rewrite (C3 i Hi). rewrite <- noise_lfsr by exact Hst.
      change (noise_iter (S i) start) with (noise_next (noise_iter i start)).
      pose proof (iter_state i start Hst) as Q. set (s := noise_iter i start) in *. clearbody s.
      pose proof (noise_value s Q) as V. exact V.
    + intros _. rewrite C2. ucbn. rewrite C1. apply noise_lfsr. exact Hst.
  - destruct C as (C & -> & _). exists []. split; [|split].
    + intros k Hk Hv. exfalso. apply Hv. apply C. lia.
    + intros i Hi. cbn [length] in Hi. lia.
    + intros C'. contradiction.
Qed.
Example noise_run_example : let u := unit_after BK_NOISE plain in
  unit_safe u /\ un_ctx u = Some 2 /\ un_waveform u = BK_NOISE /\ ph_wrap (un_phase u) = 0 /\
  exists u' l, BKUnitRun 5000 u 1000 = Ok (u', l) /\ length (nth 1 l []) = 10%nat.
Proof.
  cbv zeta. split; [apply plain_safe; auto|]. split; [reflexivity|]. split; [reflexivity|]. split; [reflexivity|].
  destruct (BKUnitRun 5000 (unit_after BK_NOISE plain) 1000) as [[u' l]|] eqn:E; [|vm_compute in E; discriminate].
  exists u', l. split; [reflexivity|]. vm_compute in E. injection E as <- <-. reflexivity.
Qed.

(** * C37: partitioning of runs *)

Theorem run_partition f1 f2 u t1 t2 u1 l1 u2 l2 : unit_safe u -> 0 <= t1 <= t2 ->
  BKUnitRun f1 u t1 = Ok (u1, l1) -> BKUnitRun f2 u1 t2 = Ok (u2, l2) ->
  BKUnitRun (f1 + f2) u t2 = Ok (u2, zip_app l1 l2).
Proof.
  intros [W _] Ht E1 E2. wf_destruct W. destruct Wwrap. apply (run_split f1 f2 u t1 t2 u1); auto; [|lia].
  constructor; lia.
Qed.
Example run_partition_example : let u := unit_after BK_SQUARE sampled in
  unit_safe u /\ exists u1 l1 u2 l2, BKUnitRun 5000 u 1048577 = Ok (u1, l1) /\ BKUnitRun 5000 u1 3000000 = Ok (u2, l2) /\
    length (nth 0 l1 []) = 1%nat /\ length (nth 0 l2 []) = 1%nat.
Proof.
  cbv zeta. split; [exact sampled_safe|].
  destruct (BKUnitRun 5000 (unit_after BK_SQUARE sampled) 1048577) as [[u1 l1]|] eqn:E; [|vm_compute in E; discriminate].
  vm_compute in E. injection E as <- <-.
  match goal with |- exists a b c d, Ok (?x, ?y) = _ /\ _ => exists x, y end.
  match goal with |- exists c d, _ /\ BKUnitRun 5000 ?x ?y = _ /\ _ => destruct (BKUnitRun 5000 x y) as [[u2 l2]|] eqn:E; [|vm_compute in E; discriminate] end.
  vm_compute in E. injection E as <- <-. do 2 eexists. split; [reflexivity|]. split; [reflexivity|]. split; reflexivity.
Qed.

(** * C38: sum of the pulses *)

(** What arrives in the buffer of a channel: the values as 16-bit numbers. *)
Definition added (k : nat) (ls : list (list (list (Z * Z)))) : Z :=
  fold_right (fun l s => sum_added (nth k l []) + s) 0 ls.

(** The values a unit computes sum up to the difference between the levels ... *)
Theorem pulses_computed fuel waveform ops u ls k : ~ In UReset ops -> history fuel waveform ops = Ok (u, ls) ->
  history_sum k ls = lastp u k.
Proof.
  intros No H. unfold history in H. apply bind_ok in H. destruct H as (u0 & E0 & H).
  rewrite (history_telescopes fuel ops k u0 u ls No H).
  assert (un_lastPulse u0 = repeat 0 8).
  { unfold BKUnitInit in E0. apply bind_ok in E0. destruct E0 as ([a ra] & E1 & E0). apply bind_ok in E0. destruct E0 as ([b rb] & E2 & E0).
    apply attr_last in E1, E2. assert (u0 = set_sm b (s_timeFrac (s_period (un_sample b) BK_FINT20_UNIT) 0)) as -> by congruence.
    change (un_lastPulse b = repeat 0 8). rewrite E2, E1. reflexivity. }
  unfold lastp. rewrite H0. rewrite nth_repeat_any. destruct (Nat.ltb _ _); lia.
Qed.
Example pulses_computed_example : ~ In UReset plain /\ exists u ls, history 5000 BK_SQUARE plain = Ok (u, ls) /\ lastp u 1 = 0.
Proof.
  split; [cbn; intuition discriminate|]. destruct (history 5000 BK_SQUARE plain) as [[u ls]|] eqn:E; [|vm_compute in E; discriminate].
  exists u, ls. split; [reflexivity|]. vm_compute in E. injection E as <- _. reflexivity.
Qed.

(** ... and arrive as they are as long as the values of the waveforms and the level
    before are within a range of 32767. *)
Theorem pulses_partial fuel u lo hi t u' l k : unit_safe u -> wave_range u lo hi -> hi - lo <= 32767 ->
  (forall k, lo <= lastp u k <= hi) -> BKUnitRun fuel u t = Ok (u', l) ->
  sum_added (nth k l []) = lastp u' k - lastp u k /\ (forall k, lo <= lastp u' k <= hi).
Proof.
  intros [W _] R Hd Hl H. destruct (run_fits fuel u lo hi t u' l W R Hd Hl H) as [F1 F2].
  split; [|exact F2]. rewrite (fits_added _ (F1 k)). exact (run_sum _ _ _ _ _ k H).
Qed.
Example pulses_example : let u := unit_after BK_SQUARE sampled in
  unit_safe u /\ wave_range u 0 32767 /\ (forall k, 0 <= lastp u k <= 32767) /\
  exists u' l, BKUnitRun 5000 u 9000000 = Ok (u', l) /\ sum_added (nth 1 l []) = 1464.
Proof.
  cbv zeta. split; [exact sampled_safe|]. split; [|split].
  - right. right. right. right. left. split; [right; reflexivity|]. split; [lia|].
    intros frames base E. vm_compute in E. injection E as <- <-. repeat constructor; discriminate.
  - intros k. do 9 (destruct k as [|k]; [vm_compute; split; discriminate|]). vm_compute. split; discriminate.
  - destruct (BKUnitRun 5000 (unit_after BK_SQUARE sampled) 9000000) as [[u' l]|] eqn:E; [|vm_compute in E; discriminate].
    exists u', l. split; [reflexivity|]. vm_compute in E. injection E as <- <-. reflexivity.
Qed.

(** A change of the duty cycle from 8 to 9 at full volume is a jump by -65533, which
    arrives as 3. *)
Definition duty_history : list uop :=
  [UAttach 1 0; UAttr BK_DUTY_CYCLE 8; UAttr BK_VOLUME 32767; UAttr BK_PERIOD 100; URun 900; UAttr BK_DUTY_CYCLE 9; URun 1000].
Theorem pulses_refuted : exists ops, Forall uop_ok ops /\ ~ In UReset ops /\
  exists u ls, history 5000 BK_SQUARE ops = Ok (u, ls) /\ lastp u 0 = -32767 /\ added 0 ls = 32769.
Proof.
  exists duty_history. split; [repeat constructor; cbv; congruence|]. split; [cbn; intuition discriminate|].
  destruct (history 5000 BK_SQUARE duty_history) as [[u ls]|] eqn:E; [|vm_compute in E; discriminate].
  exists u, ls. split; [reflexivity|]. vm_compute in E. injection E as <- <-. split; reflexivity.
Qed.

(** * C39: channels *)

(** One sequence of values is played by all audible channels ... *)
Theorem channels_same_wave fuel u t u' l n : unit_safe u -> un_ctx u = Some n ->
  BK_SQUARE <= un_waveform u <= BK_CUSTOM -> BKUnitRun fuel u t = Ok (u', l) ->
  exists raw, forall k, (k < Z.to_nat n)%nat ->
    nth k l [] = (if vol u k =? 0 then [] else chan_deltas (vol u k) (lastp u k) raw) /\
    lastp u' k = (if vol u k =? 0 then lastp u k else last_level (vol u k) (lastp u k) raw).
Proof. intros [W _] Hn. apply channels_common; [exact Hn|]. pose proof (wf_ctx u W n Hn). lia. Qed.

(** ... and the phase afterwards is the same for two units that differ in their channels,
    volumes and levels, if each has an audible channel. *)
Theorem channels_same_phase fu fv u v t u' lu v' lv n m : un_ctx u = Some n -> un_ctx v = Some m ->
  same_wave u v -> un_time u = un_time v ->
  ph_phase (un_phase u) = ph_phase (un_phase v) -> ph_wrapCount (un_phase u) = ph_wrapCount (un_phase v) ->
  un_mute u = un_mute v -> BK_SQUARE <= un_waveform u <= BK_CUSTOM ->
  (exists k, (k < Z.to_nat n)%nat /\ vol u k <> 0) -> (exists k, (k < Z.to_nat m)%nat /\ vol v k <> 0) ->
  BKUnitRun fu u t = Ok (u', lu) -> BKUnitRun fv v t = Ok (v', lv) ->
  un_phase u' = un_phase v' /\ un_time u' = un_time v'.
Proof. apply channels_phase. Qed.
Example channels_example : let u := unit_after BK_NOISE plain in
  let v := set_ctx (set_volume u [5; 0; 0; 0; 0; 0; 0; 0]) (Some 1) in
  unit_safe u /\ un_ctx u = Some 2 /\ un_ctx v = Some 1 /\ same_wave u v /\ vol u 1 = 20000 /\ vol v 0 = 5 /\
  (exists u' l, BKUnitRun 5000 u 1000 = Ok (u', l) /\ ph_phase (un_phase u') <> ph_phase (un_phase u)) /\
  (exists v' l, BKUnitRun 5000 v 1000 = Ok (v', l)).
Proof.
  cbv zeta. split; [apply plain_safe; auto|]. split; [reflexivity|]. split; [reflexivity|]. split; [repeat split|].
  split; [reflexivity|]. split; [reflexivity|]. split.
  - destruct (BKUnitRun 5000 (unit_after BK_NOISE plain) 1000) as [[u' l]|] eqn:E; [|vm_compute in E; discriminate].
    exists u', l. split; [reflexivity|]. vm_compute in E. injection E as <- <-. vm_compute. discriminate.
  - match goal with |- exists a b, ?x = _ => destruct x as [[v' l]|] eqn:E; [|vm_compute in E; discriminate] end.
    exists v', l. reflexivity.
Qed.

(** * C40: samples *)

(** Careful histories read inside of the frames, in whatever mode, direction and speed,
    and leave the play position in the play range. *)
Theorem samples_partial fuel waveform ops : Forall uop_ok ops ->
  (forall u, BKUnitInit waveform = Ok u -> all_steps (fun u o => uop_careful u o /\ uop_timely fuel u o) fuel u ops) ->
  exists u ls, history fuel waveform ops = Ok (u, ls) /\ (un_waveform u = BK_SAMPLE -> sample_good u).
Proof.
  intros H A. destruct (history_unit fuel waveform ops H A) as (u & ls & E & S1). exists u, ls. split; [exact E|].
  intros Hw. destruct S1 as (_ & _ & S1). exact (S1 Hw).
Qed.
Example samples_example : Forall uop_ok sampled /\
  (forall u, BKUnitInit BK_SQUARE = Ok u -> all_steps (fun u o => uop_careful u o /\ uop_timely 5000 u o) 5000 u sampled).
Proof. split; [exact sampled_ok|]. intros u E. vm_compute in E. injection E as <-. steps. Qed.

(** A sample of three channels played after the unit was moved to a context with six. *)
Definition wide : wdata := mk_wdata 2 3 [1; 2; 3; 4; 5; 6].
Theorem samples_refuted_channels : exists ops, Forall uop_ok ops /\
  (forall u, BKUnitInit BK_SQUARE = Ok u -> all_steps in_time 5000 u ops) /\
  history 5000 BK_SQUARE ops = Err EBounds.
Proof.
  exists [UAttach 3 0; UPtr BK_SAMPLE (PData wide); UAttr BK_PERIOD 100; UDetach; UAttach 6 0; UAttr BK_SAMPLE_REPEAT 1; URun 3000000].
  split.
  { assert (wdata_ok wide) by (repeat split; try (vm_compute; congruence); repeat constructor; unfold is_frame; lia).
    repeat (apply Forall_cons); try apply Forall_nil; cbn [uop_ok ptr_ok]; try exact I; try (split; [lia|reflexivity]);
    try (split; reflexivity); try reflexivity. split; [reflexivity|]. split; [tauto|]. split; [tauto|assumption]. }
  split; [|vm_compute; reflexivity]. intros u E. vm_compute in E. injection E as <-. steps.
Qed.

(** A palindrome faster than its length, reversed. *)
Theorem samples_refuted_palindrome : exists ops, Forall uop_ok ops /\
  (forall u, BKUnitInit BK_SQUARE = Ok u -> all_steps in_time 5000 u ops) /\
  history 5000 BK_SQUARE ops = Err EBounds.
Proof.
  exists [UAttach 1 0; UPtr BK_SAMPLE (PData ramp); UPtr BK_SAMPLE_RANGE (PRange 100 98); UAttr BK_PHASE (-1);
          UAttr BK_PERIOD 100; UAttr BK_SAMPLE_REPEAT 2; UAttr BK_SAMPLE_PERIOD 3145728; URun 3000000].
  split; [ops_ok|]. split; [|vm_compute; reflexivity]. intros u E. vm_compute in E. injection E as <-. steps.
Qed.

(** A release that jumps behind a sustain range reaching to the end of the sample. *)
Theorem samples_refuted_release : exists ops, Forall uop_ok ops /\
  (forall u, BKUnitInit BK_SQUARE = Ok u -> all_steps in_time 5000 u ops) /\
  history 5000 BK_SQUARE ops = Err EBounds.
Proof.
  exists [UAttach 1 0; UPtr BK_SAMPLE (PData ramp); UPtr BK_SAMPLE_SUSTAIN_RANGE (PRange 50 (-1)); UAttr BK_PERIOD 100;
          UAttr BK_SAMPLE_IMMED_RELEASE 1; UAttr BK_FLAG_RELEASE 1; URun 1000].
  split; [ops_ok|]. split; [|vm_compute; reflexivity]. intros u E. vm_compute in E. injection E as <-. steps.
Qed.

(** A sustain range outside of the play range. *)
Theorem samples_refuted_sustain : exists ops, Forall uop_ok ops /\
  (forall u, BKUnitInit BK_SQUARE = Ok u -> all_steps in_time 5000 u ops) /\
  history 5000 BK_SQUARE ops = Err EBounds.
Proof.
  exists [UAttach 1 0; UPtr BK_SAMPLE (PData ramp); UPtr BK_SAMPLE_RANGE (PRange 100 90); UPtr BK_SAMPLE_SUSTAIN_RANGE (PRange 20 50);
          UAttr BK_PERIOD 100; URun 3000000].
  split; [ops_ok|]. split; [|vm_compute; reflexivity]. intros u E. vm_compute in E. injection E as <-. steps.
Qed.

(** * C41: start of a range *)

(** A range that is set before the sample was played starts at its last frame: right for
    a reversed range. *)
Theorem range_start_partial u a b d : unit_safe u -> un_waveform u = BK_SAMPLE -> sm_data (un_sample u) = Some d ->
  in_s32 a = true -> in_s32 b = true ->
  sm_repeatCount (un_sample u) = 0 -> ph_phase (un_phase u) = 0 ->
  let A := range_bound (w_numFrames d) a in
  let B := range_bound (w_numFrames d) b in
  B + 2 <= A ->
  exists u', BKUnitSetPtr u BK_SAMPLE_RANGE (PRange a b) = Ok (u', 0) /\
    ph_phase (un_phase u') = A - B - 1 /\ sm_period (un_sample u') < 0.
Proof.
  intros U Hw Hd Ha Hb Hr Hp A B HL. subst A B.
  destruct (range_start u a b d U Hw Hd Ha Hb Hr Hp ltac:(cbv zeta; lia)) as (u' & E & P & S1).
  exists u'. split; [exact E|]. split; lia.
Qed.
Definition fresh_sample : bkunit := unit_after BK_SQUARE [UAttach 1 0; UPtr BK_SAMPLE (PData ramp)].
Lemma fresh_safe : unit_safe fresh_sample.
Proof.
  destruct (history_unit 5000 BK_SQUARE [UAttach 1 0; UPtr BK_SAMPLE (PData ramp)]) as (u & ls & E & S1).
  - ops_ok.
  - intros u E. vm_compute in E. injection E as <-. steps.
  - unfold fresh_sample, unit_after. rewrite E. exact S1.
Qed.
Example range_start_example : unit_safe fresh_sample /\ sm_data (un_sample fresh_sample) = Some ramp /\
  un_waveform fresh_sample = BK_SAMPLE /\ sm_repeatCount (un_sample fresh_sample) = 0 /\ ph_phase (un_phase fresh_sample) = 0 /\
  range_bound (w_numFrames ramp) (-1) = 100 /\ range_bound (w_numFrames ramp) 10 = 10.
Proof. split; [exact fresh_safe|]. repeat split. Qed.

(** A forward range starts there, too. *)
Theorem range_start_refuted : exists u d, unit_safe u /\ un_waveform u = BK_SAMPLE /\ sm_data (un_sample u) = Some d /\
  sm_repeatCount (un_sample u) = 0 /\ ph_phase (un_phase u) = 0 /\
  exists u', BKUnitSetPtr u BK_SAMPLE_RANGE (PRange 10 50) = Ok (u', 0) /\
    sm_period (un_sample u') = 1048576 /\ ph_phase (un_phase u') = 39.
Proof.
  exists fresh_sample, ramp. split; [exact fresh_safe|]. split; [reflexivity|]. split; [reflexivity|].
  split; [reflexivity|]. split; [reflexivity|].
  destruct (BKUnitSetPtr fresh_sample BK_SAMPLE_RANGE (PRange 10 50)) as [[u' r]|] eqn:E; [|vm_compute in E; discriminate].
  exists u'. vm_compute in E. injection E as <- <-. split; [reflexivity|]. split; reflexivity.
Qed.

(** * C42: sample callback *)

(** Without callback the repeat mode decides: a repeated sample is never muted by a run;
    one that is not repeated is muted as soon as it reaches its end. *)
Theorem repeat_partial fuel u t u' l : unit_safe u -> un_waveform u = BK_SAMPLE ->
  sm_callback (un_sample u) = None -> BKUnitRun fuel u t = Ok (u', l) ->
  (sm_repeatMode (un_sample u) = BK_REPEAT \/ sm_repeatMode (un_sample u) = BK_PALINDROME -> un_mute u' = un_mute u) /\
  (sm_repeatMode (un_sample u) = BK_NO_REPEAT ->
   sm_repeatCount (un_sample u') = sm_repeatCount (un_sample u) /\ un_mute u' = un_mute u \/
   sm_repeatCount (un_sample u') = u32 (sm_repeatCount (un_sample u) + 1) /\ un_mute u' = 1).
Proof.
  intros [W _] Hw Hc H. destruct (run_repeats fuel u t u' l W Hw H) as [R1 R2]. unfold repeats in R1, R2. rewrite Hc in R1, R2.
  split.
  - intros [M|M]; apply R1; rewrite M; reflexivity.
  - intros M. apply R2. rewrite M. reflexivity.
Qed.
Example repeat_example : unit_safe fresh_sample /\ sm_callback (un_sample fresh_sample) = None /\
  exists u, BKUnitSetAttr fresh_sample BK_SAMPLE_REPEAT BK_REPEAT = Ok (u, 0) /\ sm_repeatMode (un_sample u) = BK_REPEAT.
Proof. split; [exact fresh_safe|]. split; [reflexivity|]. eexists. split; reflexivity. Qed.

(** With a callback the sample ends whatever the callback answers. *)
Theorem repeat_callback_partial fuel u t u' l answer : unit_safe u -> un_waveform u = BK_SAMPLE ->
  sm_callback (un_sample u) = Some answer -> BKUnitRun fuel u t = Ok (u', l) ->
  sm_repeatCount (un_sample u') = sm_repeatCount (un_sample u) /\ un_mute u' = un_mute u \/
  sm_repeatCount (un_sample u') = u32 (sm_repeatCount (un_sample u) + 1) /\ un_mute u' = 1.
Proof.
  intros [W _] Hw Hc H. destruct (run_repeats fuel u t u' l W Hw H) as [_ R2]. unfold repeats in R2. rewrite Hc in R2.
  apply R2. reflexivity.
Qed.

Definition callback_sample (answer : Z) : list uop :=
  [UAttach 1 0; UPtr BK_SAMPLE (PData (mk_wdata 3 1 [100; 200; 300])); UPtr BK_SAMPLE_CALLBACK (PCallback answer);
   UAttr BK_PERIOD 100; UAttr BK_VOLUME 32767; URun 10000000].
Theorem repeat_refuted : exists answer u ls, answer = BK_REPEAT /\
  history 5000 BK_SQUARE (callback_sample answer) = Ok (u, ls) /\
  sm_repeatCount (un_sample u) = 1 /\ un_mute u = 1 /\ length (nth 0 (last ls []) []) = 3%nat.
Proof.
  exists BK_REPEAT.
  destruct (history 5000 BK_SQUARE (callback_sample BK_REPEAT)) as [[u ls]|] eqn:E; [|vm_compute in E; discriminate].
  exists u, ls. vm_compute in E. injection E as <- <-. repeat split.
Qed.

(** * C43: getters *)

(** The getter of the unit returns the ranges as they were set: with negative positions
    counted from the end, limited to the sample, the sustain range in ascending order. *)
Theorem pointers_range_partial u a b d : unit_safe u -> un_waveform u = BK_SAMPLE -> sm_data (un_sample u) = Some d ->
  in_s32 a = true -> in_s32 b = true ->
  exists u', BKUnitSetPtr u BK_SAMPLE_RANGE (PRange a b) = Ok (u', 0) /\
    BKUnitGetPtr u' BK_SAMPLE_RANGE = (0, PRange (range_bound (w_numFrames d) a) (range_bound (w_numFrames d) b)) /\
    BKUnitGetPtr u' BK_SAMPLE_SUSTAIN_RANGE = (0, PRange 0 0) /\
    BKUnitGetAttr u' BK_NUM_PHASES =
      Ok (0, Some (Z.abs (range_bound (w_numFrames d) a - range_bound (w_numFrames d) b))).
Proof. apply range_readback. Qed.
Theorem pointers_sustain_partial u a b d : unit_safe u -> un_waveform u = BK_SAMPLE -> sm_data (un_sample u) = Some d ->
  in_s32 a = true -> in_s32 b = true -> a <> b ->
  exists u', BKUnitSetPtr u BK_SAMPLE_SUSTAIN_RANGE (PRange a b) = Ok (u', 0) /\
    BKUnitGetPtr u' BK_SAMPLE_SUSTAIN_RANGE =
      (0, PRange (Z.min (range_bound (w_numFrames d) a) (range_bound (w_numFrames d) b))
                 (Z.max (range_bound (w_numFrames d) a) (range_bound (w_numFrames d) b))) /\
    BKUnitGetPtr u' BK_SAMPLE_RANGE = BKUnitGetPtr u BK_SAMPLE_RANGE.
Proof. apply sustain_readback. Qed.
Example pointers_example : unit_safe fresh_sample /\ un_waveform fresh_sample = BK_SAMPLE /\
  sm_data (un_sample fresh_sample) = Some ramp /\ range_bound (w_numFrames ramp) (-11) = 90.
Proof. split; [exact fresh_safe|]. repeat split. Qed.

(** The generic getter calls the setter: asking for the sustain range sets it to what is in
    the memory for the result, and leaves that memory alone. *)
Theorem pointers_refuted : exists u out, unit_safe u /\ BKUnitGetPtr u BK_SAMPLE_SUSTAIN_RANGE = (0, PRange 0 0) /\
  exists u', BKUnitGetPtrSize u BK_SAMPLE_SUSTAIN_RANGE out = Ok (u', 0, out) /\ out <> PRange 0 0 /\
    BKUnitGetPtr u' BK_SAMPLE_SUSTAIN_RANGE = (0, out).
Proof.
  exists fresh_sample, (PRange 7 9). split; [exact fresh_safe|]. split; [reflexivity|].
  destruct (BKUnitGetPtrSize fresh_sample BK_SAMPLE_SUSTAIN_RANGE (PRange 7 9)) as [[[u' r] o]|] eqn:E; [|vm_compute in E; discriminate].
  exists u'. vm_compute in E. injection E as <- <- <-. split; [reflexivity|]. split; [discriminate|reflexivity].
Qed.

(** ** C73: clearing a unit *)

(** After clearing, an attached unit has no waveform of its own frames, no sample, no ranges,
    no repeating, no wrapping and no pending release; volumes, muting, duty cycle, period
    and callback are kept. *)
Theorem clear_forgets u n : unit_safe u -> un_ctx u = Some n ->
  exists u', BKUnitClear u = Ok u' /\ unit_safe u' /\
    un_waveform u' = (if (un_waveform u =? BK_CUSTOM) || (un_waveform u =? BK_SAMPLE) then 0 else un_waveform u) /\
    BKUnitGetPtr u' BK_SAMPLE = (0, PNull) /\
    BKUnitGetPtr u' BK_SAMPLE_RANGE = (0, PRange 0 0) /\
    BKUnitGetPtr u' BK_SAMPLE_SUSTAIN_RANGE = (0, PRange 0 0) /\
    BKUnitGetAttr u' BK_PHASE_WRAP = Ok (0, Some 0) /\
    BKUnitGetAttr u' BK_SAMPLE_REPEAT = Ok (0, Some 0) /\
    BKUnitGetAttr u' BK_SAMPLE_PERIOD = Ok (0, Some BK_FINT20_UNIT) /\
    BKUnitGetAttr u' BK_SAMPLE_IMMED_RELEASE = Ok (0, Some 0) /\
    BKUnitGetAttr u' BK_FLAG_RELEASE = Ok (0, Some 0) /\ un_sustain u' = false /\
    BKUnitGetPtr u' BK_SAMPLE_CALLBACK = BKUnitGetPtr u BK_SAMPLE_CALLBACK /\
    (forall attr, attr = BK_DUTY_CYCLE \/ attr = BK_PERIOD \/ attr = BK_MUTE \/ BK_VOLUME_0 <= attr <= BK_VOLUME_7 ->
      BKUnitGetAttr u' attr = BKUnitGetAttr u attr).
Proof.
  intros U Ec. destruct (clear_safe u U) as (u' & E & S' & _).
  exists u'. split; [exact E|]. split; [exact S'|]. clear S'. revert E.
  assert (K : forall (x : bkunit), Ok x = Ok u' -> u' = x) by (intros; congruence).
  assert (G : forall v, un_duty v = un_duty u -> un_period v = un_period u -> un_mute v = un_mute u ->
     un_volume v = un_volume u ->
     (forall attr, attr = BK_DUTY_CYCLE \/ attr = BK_PERIOD \/ attr = BK_MUTE \/ BK_VOLUME_0 <= attr <= BK_VOLUME_7 ->
      BKUnitGetAttr v attr = BKUnitGetAttr u attr)).
  { intros v G1 G2 G3 G4 attr H. apply get_attr_same. unfold same_attr. attr_consts.
    repeat split; intros; try congruence; exfalso; lia. }
  unfold BKUnitClear, BKUnitSetData, BKUnitTrySetData. rewrite Ec. cbv zeta.
  change (BK_WAVEFORM =? BK_WAVEFORM) with true. change (BK_SAMPLE =? BK_WAVEFORM) with false.
  change (BK_SAMPLE =? BK_SAMPLE) with true. cbv iota.
  destruct (Z.eqb_spec (un_waveform u) BK_CUSTOM) as [E1|E1]; cbn [bind Z.eqb]; ucbn.
  - change ((0 =? BK_CUSTOM) || (0 =? BK_SAMPLE)) with false. cbn [bind Z.eqb]; ucbn. rewrite Ec.
    cbn [bind]. change (0 =? BK_SAMPLE) with false. cbn [bind Z.eqb Z.gtb Z.compare]. ucbn.
    intros E. apply K in E. subst u'. repeat split; try reflexivity. apply G; reflexivity.
  - rewrite Ec. destruct (Z.eqb_spec (un_waveform u) BK_SAMPLE) as [E2|E2]; cbn [bind Z.eqb Z.gtb Z.compare]; ucbn;
    intros E; apply K in E; subst u'.
    + repeat split; try reflexivity. apply G; reflexivity.
    + cbn [orb]. repeat split; try reflexivity.
      * unfold BKUnitGetPtr. ucbn. destruct (_ || _); reflexivity.
      * apply G; reflexivity.
Qed.
Example clear_example : unit_safe fresh_sample /\ un_ctx fresh_sample = Some 1 /\ un_waveform fresh_sample = BK_SAMPLE.
Proof. split; [exact fresh_safe|]. split; reflexivity. Qed.

(** A unit that is not attached keeps its sample and the full range. *)
Theorem clear_refuted : exists u u', unit_safe u /\ BKUnitClear u = Ok u' /\
  BKUnitGetPtr u' BK_SAMPLE_RANGE = (0, PRange 0 100) /\ sm_data (un_sample u') <> None.
Proof.
  exists (BKUnitDetach fresh_sample).
  destruct (BKUnitClear (BKUnitDetach fresh_sample)) as [u'|] eqn:E; [|vm_compute in E; discriminate].
  exists u'. split; [|split; [reflexivity|]].
  - apply detach_safe. exact fresh_safe.
  - assert (K : forall (x y : bkunit), Ok x = Ok y -> y = x) by (intros; congruence).
    vm_compute in E. apply K in E. subst u'. split; [reflexivity|discriminate].
Qed.

Print Assumptions attributes_partial.
Print Assumptions attributes_no_phases.
Print Assumptions attributes_volume.
Print Assumptions attributes_refused.
Print Assumptions waveforms_refused.
Print Assumptions attributes_refuted.
Print Assumptions tables_partial.
Print Assumptions tables_refuted.
Print Assumptions noise_cycle.
Print Assumptions noise_run.
Print Assumptions run_partition.
Print Assumptions pulses_computed.
Print Assumptions pulses_partial.
Print Assumptions pulses_refuted.
Print Assumptions channels_same_wave.
Print Assumptions channels_same_phase.
Print Assumptions samples_partial.
Print Assumptions samples_refuted_channels.
Print Assumptions samples_refuted_palindrome.
Print Assumptions samples_refuted_release.
Print Assumptions samples_refuted_sustain.
Print Assumptions range_start_partial.
Print Assumptions range_start_refuted.
Print Assumptions repeat_partial.
Print Assumptions repeat_callback_partial.
Print Assumptions repeat_refuted.
Print Assumptions pointers_range_partial.
Print Assumptions pointers_sustain_partial.
Print Assumptions pointers_refuted.
Print Assumptions clear_forgets.
Print Assumptions clear_refuted.
