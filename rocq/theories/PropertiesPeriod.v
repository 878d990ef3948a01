(** Property of the waveform a unit plays over time: C111. *)
From Verif Require Import CInt CIntFacts DataModel UnitModel UnitSpec UnitProofs UnitProofs2 UnitProofs3 UnitProofs4 UnitInv UnitInv2 UnitInv3 UnitProofs5 PropertiesUnit.
Ltac Zify.zify_post_hook ::= idtac.

(** ** What is to be heard *)

(** The values of one cycle of the waveform of a unit. *)
Definition cycle (u : bkunit) : list Z :=
  let w := un_waveform u in
  if w =? BK_SQUARE then nth (Z.to_nat (un_duty u)) squarePhases []
  else if w =? BK_TRIANGLE then trianglePhases
  else if w =? BK_SAWTOOTH then sawtoothPhases
  else if w =? BK_SINE then map (fun v => Z.quot v 2) sinePhases
  else match sm_frames (un_sample u) with Some (frames, _) => firstn (Z.to_nat (ph_count (un_phase u))) frames | None => [] end.
(** Value number [k] of a cycle which is repeated. *)
Definition value (c : list Z) (k : Z) : Z := nth (Z.to_nat (k mod Z.of_nat (length c))) c 0.

(** A unit plays [rounds]: running to a time and ending another one, which becomes the new
    time 0.  The pulses of channel [c] have absolute times, the first round starts at [now]. *)
Fixpoint rounds (fuel : nat) (u : bkunit) (c : nat) (now : Z) (rs : list (Z * Z)) : res (bkunit * list (Z * Z)) :=
  match rs with
  | [] => Ok (u, [])
  | (e, d) :: rs =>
    let* (u, l) := BKUnitRun fuel u e in
    let* (u, m) := rounds fuel (BKUnitEnd u d) c (now + d) rs in
    Ok (u, map (fun tp => (now + fst tp, snd tp)) (nth c l []) ++ m)
  end.

(** The latest time up to which the unit has run. *)
Fixpoint horizon (now h : Z) (rs : list (Z * Z)) : Z :=
  match rs with
  | [] => h
  | (e, d) :: rs => horizon (now + d) (Z.max h (now + e)) rs
  end.

(** Sum of the pulses up to a time. *)
Definition heard (l : list (Z * Z)) (t : Z) : Z := sum_values (filter (fun tp => fst tp <=? t) l).

(** A unit which plays a waveform that is not noise. *)
Definition tonal (u : bkunit) : Prop :=
  BK_SQUARE <= un_waveform u <= BK_CUSTOM /\ un_waveform u <> BK_NOISE /\
  (un_waveform u = BK_CUSTOM -> ph_wrap (un_phase u) = 0) /\ un_mute u = 0 /\ 0 < un_period u.

(** The times of the rounds are not near the end of the 32 bits, and no more is ended than was
    run.  The fuel of the model is enough. *)
Definition rounds_good (fuel : nat) (rs : list (Z * Z)) : Prop :=
  Forall (fun r => 0 <= snd r <= fst r /\ fst r + 1048576 < 2147483648 /\ fst r + 1000 <= Z.of_nat fuel) rs.

(** ** Steps *)

Definition before (t p e : Z) : Z := if t <? e then (e - t + p - 1) / p else 0.

Fixpoint edges (n : nat) (k t p : Z) (c : list Z) : list (Z * Z) :=
  match n with O => [] | S n => (t, value c k) :: edges n (k + 1) (t + p) p c end.

Lemma before_step t p e : 0 < p -> t < e -> before t p e = before (t + p) p e + 1.
Proof.
  intros P T. unfold before. replace (t <? e) with true by lia. destruct (t + p <? e) eqn:E.
  - replace (e - t + p - 1) with (e - (t + p) + p - 1 + 1 * p) by ring. rewrite Z.div_add by lia. reflexivity.
  - symmetry. apply Z.div_unique with (e - t + p - 1 - p); lia.
Qed.
Lemma before_bounds t p e : 0 < p -> 0 <= before t p e /\ (t < e -> e <= t + before t p e * p < e + p).
Proof.
  intros P. unfold before. destruct (t <? e) eqn:E; [|lia]. pose proof (Z.div_mod (e - t + p - 1) p ltac:(lia)). pose proof (Z.mod_pos_bound (e - t + p - 1) p P).
  split; [apply Z.div_pos; lia|]. intros _. nia.
Qed.

Lemma table_square d : 1 <= d <= 15 -> exists row, aget squarePhases (s32 d) = Ok row /\ row = nth (Z.to_nat d) squarePhases [] /\ length row = 16%nat.
Proof.
  intros D. rewrite s32_id by lia. assert (X : d = 1 \/ d = 2 \/ d = 3 \/ d = 4 \/ d = 5 \/ d = 6 \/ d = 7 \/ d = 8 \/ d = 9 \/ d = 10 \/ d = 11 \/ d = 12 \/ d = 13 \/ d = 14 \/ d = 15) by lia.
  repeat destruct X as [X|X]; subst d; eexists; (split; [reflexivity|]); split; reflexivity.
Qed.

Lemma land_ones k p : 0 <= p < 2 ^ k -> 0 <= k < 32 -> Z.land (u32 (p + 1)) (2 ^ k - 1) = (p + 1) mod 2 ^ k.
Proof.
  intros P K. assert (2 ^ k <= 2 ^ 31) by (apply Z.pow_le_mono_r; lia). change (2 ^ 31) with 2147483648 in *. rewrite u32_id by lia.
  replace (2 ^ k - 1) with (Z.ones k) by (rewrite Z.ones_equiv; lia). apply Z.land_ones. lia.
Qed.

Lemma cycle_step u ph wc : unit_safe u -> tonal u -> 0 <= ph < Z.of_nat (length (cycle u)) ->
  wave_step u ph wc = Ok (value (cycle u) ph, (ph + 1) mod Z.of_nat (length (cycle u)), wc).
Proof.
  intros (W & T & _) (R & N & C & _ & _). destruct (T R) as [[D T1] _]. clear T. unfold value, cycle, wave_step.
  destruct (un_waveform u =? BK_SQUARE) eqn:E1.
  { destruct (table_square _ D) as (row & A & B & L). rewrite A, <- B, L. cbn [bind]. intros P. rewrite Z.mod_small by lia.
    rewrite (aget_nth row ph 0) by lia. cbn [bind]. change (BK_SQUARE_PHASES - 1) with (2 ^ 4 - 1). rewrite land_ones by lia. reflexivity. }
  destruct (un_waveform u =? BK_TRIANGLE) eqn:E2.
  { change (Z.of_nat (length trianglePhases)) with 32. intros P. rewrite Z.mod_small by lia. rewrite (aget_nth trianglePhases ph 0) by (change (Z.of_nat (length trianglePhases)) with 32; lia). cbn [bind].
    change (BK_TRIANGLE_PHASES - 1) with (2 ^ 5 - 1). rewrite land_ones by lia. reflexivity. }
  replace (un_waveform u =? BK_NOISE) with false by lia.
  destruct (un_waveform u =? BK_SAWTOOTH) eqn:E3.
  { change (Z.of_nat (length sawtoothPhases)) with 7. intros P. rewrite Z.mod_small by lia. rewrite (aget_nth sawtoothPhases ph 0) by (change (Z.of_nat (length sawtoothPhases)) with 7; lia). cbn [bind]. cbv zeta.
    rewrite u32_id by lia. change BK_SAWTOOTH_PHASES with 7. assert (ph = 6 \/ ph < 6) as [-> |P6] by lia; [reflexivity|]. replace (ph + 1 >=? 7) with false by lia. rewrite Z.mod_small by lia. reflexivity. }
  destruct (un_waveform u =? BK_SINE) eqn:E4.
  { rewrite map_length. change (Z.of_nat (length sinePhases)) with 32. intros P. rewrite Z.mod_small by lia. rewrite (aget_nth sinePhases ph 0) by (change (Z.of_nat (length sinePhases)) with 32; lia). cbn [bind].
    change (BK_SINE_PHASES - 1) with (2 ^ 5 - 1). rewrite land_ones by lia. assert (Q : nth (Z.to_nat ph) (map (fun v => Z.quot v 2) sinePhases) 0 = Z.quot (nth (Z.to_nat ph) sinePhases 0) 2) by exact (map_nth (fun v => Z.quot v 2) sinePhases 0 (Z.to_nat ph)). rewrite Q. reflexivity. }
  assert (CU : un_waveform u = BK_CUSTOM) by (unfold BK_SQUARE, BK_TRIANGLE, BK_NOISE, BK_SAWTOOTH, BK_SINE, BK_CUSTOM in *; lia).
  destruct (T1 CU) as (CC & frames & F & L & _). rewrite F. rewrite firstn_length_le by lia. rewrite Z2Nat.id by lia. intros P.
  unfold wrap_step. rewrite (C CU). change (negb (0 =? 0)) with false. cbn iota. rewrite (aget_nth frames (0 + ph) 0) by lia. cbn [bind]. cbv zeta. rewrite u32_id by lia. rewrite Z.mod_small by lia.
  assert (NT : nth (Z.to_nat ph) (firstn (Z.to_nat (ph_count (un_phase u))) frames) 0 = nth (Z.to_nat ph) frames 0).
  { rewrite <- (firstn_skipn (Z.to_nat (ph_count (un_phase u))) frames) at 2. rewrite app_nth1; [reflexivity|]. rewrite firstn_length. lia. }
  rewrite NT, Z.add_0_l. destruct (ph + 1 >=? ph_count (un_phase u)) eqn:G.
  - replace (ph + 1) with (ph_count (un_phase u)) by lia. rewrite Z.mod_same by lia. reflexivity.
  - rewrite Z.mod_small by lia. reflexivity.
Qed.

Lemma value_mod c k : c <> [] -> value c (k mod Z.of_nat (length c)) = value c k.
Proof. intros C. unfold value. rewrite Z.mod_mod; [reflexivity|]. destruct c; [congruence|cbn [length]; lia]. Qed.

Lemma edges_shift c : c <> [] -> forall n k t p, edges n (k mod Z.of_nat (length c)) t p c = edges n k t p c.
Proof.
  intros C. assert (G : forall n k k' t p, k mod Z.of_nat (length c) = k' mod Z.of_nat (length c) -> edges n k t p c = edges n k' t p c).
  { induction n as [|n IH]; intros k k' t p E; cbn [edges]; [reflexivity|]. f_equal.
    - f_equal. unfold value. rewrite E. reflexivity.
    - apply IH. rewrite Zplus_mod, E, <- Zplus_mod. reflexivity. }
  intros n k t p. apply G. apply Z.mod_mod. destruct c; [congruence|cbn [length]; lia].
Qed.

Lemma raw_edges u : unit_safe u -> tonal u -> forall fuel e t ph wc, 0 <= t -> e + un_period u < 4294967296 -> before t (un_period u) e <= Z.of_nat fuel ->
  0 <= ph < Z.of_nat (length (cycle u)) ->
  let n := before t (un_period u) e in
  wave_raw fuel u e t ph wc = Ok (t + n * un_period u, (ph + n) mod Z.of_nat (length (cycle u)), wc, edges (Z.to_nat n) ph t (un_period u) (cycle u)).
Proof.
  intros SF T. pose proof T as (_ & _ & _ & _ & P). set (p := un_period u) in *. set (c := cycle u). assert (C0 : c = cycle u) by reflexivity.
  induction fuel as [|fuel IH]; intros e t ph wc T0 E F PH; cbv zeta.
  - assert (B : before t p e = 0) by (pose proof (before_bounds t p e P); lia). rewrite B. cbn [wave_raw].
    destruct (t <? e) eqn:TE; [pose proof (before_bounds t p e P); lia|]. rewrite Z.mul_0_l, !Z.add_0_r, Z.mod_small by lia. reflexivity.
  - cbn [wave_raw]. destruct (t <? e) eqn:TE.
    + rewrite cycle_step by assumption. fold c. cbn [bind]. fold p. rewrite u32_id by lia.
      pose proof (before_step t p e P ltac:(lia)) as B. pose proof (before_bounds (t + p) p e P) as [B0 _].
      assert (CL : c <> []) by (intros CE; rewrite CE in PH; cbn [length] in PH; lia).
      rewrite IH; [|lia|lia|lia|apply Z.mod_pos_bound; destruct c; [congruence|cbn [length]; lia]].
      cbn [bind]. rewrite B. set (m := before (t + p) p e) in *. replace (Z.to_nat (m + 1)) with (S (Z.to_nat m)) by lia. cbn [edges].
      rewrite (edges_shift c CL). rewrite Z.add_mod_idemp_l by (destruct c; [congruence|cbn [length]; lia]).
      replace (t + p + m * p) with (t + (m + 1) * p) by ring. replace (ph + 1 + m) with (ph + (m + 1)) by ring. reflexivity.
    + assert (B : before t p e = 0) by (unfold before; rewrite TE; reflexivity). rewrite B, Z.mul_0_l, !Z.add_0_r, Z.mod_small by lia. reflexivity.
Qed.

Lemma cycle_good u : unit_safe u -> tonal u -> 0 <= ph_phase (un_phase u) < Z.of_nat (length (cycle u)) /\ Forall is_frame (cycle u).
Proof.
  intros (W & T & _) (R & N & C & _ & _). destruct (T R) as [[D T1] [P0 P1]]. clear T. unfold cycle in *.
  assert (Q : un_waveform u = BK_SQUARE \/ un_waveform u = BK_TRIANGLE \/ un_waveform u = BK_SAWTOOTH \/ un_waveform u = BK_SINE \/ un_waveform u = BK_CUSTOM) by (unfold BK_SQUARE, BK_TRIANGLE, BK_NOISE, BK_SAWTOOTH, BK_SINE, BK_CUSTOM in *; lia).
  destruct Q as [Q|[Q|[Q|[Q|Q]]]]; rewrite Q in *; cbn [Z.eqb Pos.eqb BK_SQUARE BK_TRIANGLE BK_NOISE BK_SAWTOOTH BK_SINE BK_CUSTOM] in *.
  - assert (X : un_duty u = 1 \/ un_duty u = 2 \/ un_duty u = 3 \/ un_duty u = 4 \/ un_duty u = 5 \/ un_duty u = 6 \/ un_duty u = 7 \/ un_duty u = 8 \/ un_duty u = 9 \/ un_duty u = 10 \/ un_duty u = 11 \/ un_duty u = 12 \/ un_duty u = 13 \/ un_duty u = 14 \/ un_duty u = 15) by lia.
    destruct P1 as [[? _]|[[? _]|P1]]; try discriminate. change (ph_phase (un_phase u) < 16) in P1.
    repeat destruct X as [X|X]; rewrite X; (split; [change (0 <= ph_phase (un_phase u) < 16); lia|repeat constructor; cbv; congruence]).
  - destruct P1 as [[? _]|[[? _]|P1]]; try discriminate. change (ph_phase (un_phase u) < 32) in P1. split; [change (0 <= ph_phase (un_phase u) < 32); lia|repeat constructor; cbv; congruence].
  - destruct P1 as [[? _]|[[? _]|P1]]; try discriminate. change (ph_phase (un_phase u) < 7) in P1. split; [change (0 <= ph_phase (un_phase u) < 7); lia|repeat constructor; cbv; congruence].
  - destruct P1 as [[? _]|[[? _]|P1]]; try discriminate. change (ph_phase (un_phase u) < 32) in P1. split; [change (0 <= ph_phase (un_phase u) < 32); lia|repeat constructor; cbv; congruence].
  - destruct (T1 eq_refl) as (CC & frames & F & L & FR). rewrite F. rewrite firstn_length_le by lia. rewrite Z2Nat.id by lia. split.
    + destruct P1 as [[? _]|[[_ P1]|P1]]; [discriminate|lia|change (ph_phase (un_phase u) < 0) in P1; lia].
    + apply Forall_forall. intros x X. rewrite Forall_forall in FR. apply FR. rewrite <- (firstn_skipn (Z.to_nat (ph_count (un_phase u))) frames). apply in_or_app. auto.
Qed.

Lemma run_cycles fuel u e n c : unit_safe u -> tonal u -> un_ctx u = Some n -> (c < Z.to_nat n)%nat -> vol u c <> 0 ->
  0 <= e -> e + 1048576 < 2147483648 -> e + 1000 <= Z.of_nat fuel ->
  let m := before (un_time u) (un_period u) e in
  let raw := edges (Z.to_nat m) (ph_phase (un_phase u)) (un_time u) (un_period u) (cycle u) in
  exists u' l, BKUnitRun fuel u e = Ok (u', l) /\ unit_safe u' /\ tonal u' /\ cycle u' = cycle u /\ un_period u' = un_period u /\ un_ctx u' = Some n /\ un_volume u' = un_volume u /\ length l = Z.to_nat n /\ e <= un_time u' /\
    un_time u' = un_time u + m * un_period u /\ ph_phase (un_phase u') = (ph_phase (un_phase u) + m) mod Z.of_nat (length (cycle u)) /\
    forall k, (k < Z.to_nat n)%nat -> lastp u' k = (if vol u k =? 0 then lastp u k else last_level (vol u k) (lastp u k) raw) /\
      nth k l [] = (if vol u k =? 0 then [] else chan_deltas (vol u k) (lastp u k) raw).
Proof.
  intros S T CX CN V E0 E1 F m raw. pose proof T as (R & N & CW & M & P). pose proof (wf_time u (proj1 S)) as WT. pose proof (wf_period u (proj1 S)) as WP.
  destruct (run_safe fuel u e S) as (u' & l & E & S').
  { intros X. rewrite X in R. cbv in R. exfalso. apply (proj2 R). reflexivity. }
  { split; [congruence|lia]. }
  { exact E0. }
  exists u', l. split; [exact E|]. split; [exact S'|]. unfold BKUnitRun in E. rewrite CX in E. cbv zeta in E.
  replace (un_period u =? 0) with false in E by lia. replace ((BK_SQUARE <=? un_waveform u) && (un_waveform u <=? BK_CUSTOM)) with true in E by lia.
  apply bind_ok in E. destruct E as ([[u1 t1] l1] & E & H). unfold BKUnitRunWaveform in E. rewrite M in E. change (negb (0 =? 0)) with false in E. cbn iota in E.
  assert (HU : u' = set_time u1 (if t1 <? e then e else t1)) by congruence. assert (l = l1) as -> by congruence. clear H.
  change 0 with (Z.of_nat 0) in E at 1. apply wave_channels_char in E. destruct E as (x & C & L & LL & LP & NT). cbv zeta in *.
  destruct (cycle_good u S T) as (PG & _).
  assert (B : before (un_time u) (un_period u) e <= Z.of_nat fuel).
  { unfold before. destruct (un_time u <? e) eqn:Q; [|lia]. pose proof (Z.div_lt_upper_bound (e - un_time u + un_period u - 1) (un_period u) (e + 1) P). nia. }
  pose proof (raw_edges u S T fuel e (un_time u) (ph_phase (un_phase u)) (u32 (ph_wrapCount (un_phase u))) (proj1 WT) ltac:(lia) B PG) as RE. cbv zeta in RE. fold m in RE. fold raw in RE.
  destruct x as [[[[t0 ph] wc] rw]|].
  2: { destruct C as (C & _). exfalso. apply V, C. lia. }
  destruct C as (RR & _ & -> & HU1). unfold run_raw, start_phase in RR. replace (un_waveform u =? BK_NOISE) with false in RR by lia. cbn [andb] in RR. rewrite RE in RR. cbn [bind] in RR.
  pose proof (wf_wrap u (proj1 S)) as [_ WC]. rewrite s32_u32 in RR by lia.
  assert (t0 = un_time u + m * un_period u /\ ph = (ph_phase (un_phase u) + m) mod Z.of_nat (length (cycle u)) /\ wc = ph_wrapCount (un_phase u) /\ rw = raw) as (-> & -> & -> & ->) by (repeat split; congruence).
  clear RR. pose proof (before_bounds (un_time u) (un_period u) e P) as [B0 B1]. fold m in B0, B1.
  assert (TT : (un_time u + m * un_period u <? e) = false) by (destruct (Z.lt_ge_cases (un_time u) e); nia). rewrite TT in HU.
  assert (U1 : un_waveform u' = un_waveform u /\ un_mute u' = un_mute u /\ un_period u' = un_period u /\ un_ctx u' = un_ctx u /\ un_volume u' = un_volume u /\ un_duty u' = un_duty u /\ un_sample u' = un_sample u /\
    ph_count (un_phase u') = ph_count (un_phase u) /\ ph_wrap (un_phase u') = ph_wrap (un_phase u) /\ ph_phase (un_phase u') = (ph_phase (un_phase u) + m) mod Z.of_nat (length (cycle u))) by (rewrite HU, HU1; repeat split; reflexivity).
  destruct U1 as (Q1 & Q2 & Q3 & Q4 & Q5 & Q6 & Q7 & Q8 & Q9 & Q10).
  split; [unfold tonal; rewrite Q1, Q2, Q3, Q9; exact T|]. split; [unfold cycle; rewrite Q1, Q6, Q7, Q8; reflexivity|]. split; [exact Q3|]. split; [congruence|]. split; [exact Q5|]. split; [exact L|]. split; [rewrite HU; cbn [un_time set_time]; lia|].
  split; [rewrite HU; reflexivity|]. split; [exact Q10|]. intros k HK. split.
  - rewrite HU. change (lastp (set_time u1 (un_time u + m * un_period u))) with (lastp u1). rewrite LP. replace ((0 <=? k)%nat && (k <? 0 + Z.to_nat n)%nat) with true by lia. cbn [andb]. destruct (vol u k =? 0); reflexivity.
  - rewrite NT by exact HK. reflexivity.
Qed.

Lemma run_cycle fuel u e n c : unit_safe u -> tonal u -> un_ctx u = Some n -> (c < Z.to_nat n)%nat -> vol u c <> 0 ->
  0 <= e -> e + 1048576 < 2147483648 -> e + 1000 <= Z.of_nat fuel ->
  let m := before (un_time u) (un_period u) e in
  let raw := edges (Z.to_nat m) (ph_phase (un_phase u)) (un_time u) (un_period u) (cycle u) in
  exists u' l, BKUnitRun fuel u e = Ok (u', l) /\ unit_safe u' /\ tonal u' /\ cycle u' = cycle u /\ un_period u' = un_period u /\ un_ctx u' = Some n /\ vol u' c = vol u c /\
    un_time u' = un_time u + m * un_period u /\ ph_phase (un_phase u') = (ph_phase (un_phase u) + m) mod Z.of_nat (length (cycle u)) /\
    lastp u' c = last_level (vol u c) (lastp u c) raw /\ nth c l [] = chan_deltas (vol u c) (lastp u c) raw.
Proof.
  intros S T CX CN V E0 E1 F m raw. destruct (run_cycles fuel u e n c S T CX CN V E0 E1 F) as (u' & l & E & S' & T' & C' & P' & X' & V' & _ & _ & TM & PH & H). exists u', l.
  specialize (H c CN). replace (vol u c =? 0) with false in H by lia. destruct H as (H1 & H2).
  split; [exact E|]. split; [exact S'|]. split; [exact T'|]. split; [exact C'|]. split; [exact P'|]. split; [exact X'|]. split; [unfold vol; rewrite V'; reflexivity|].
  split; [exact TM|]. split; [exact PH|]. split; [exact H1|exact H2].
Qed.

(** ** Joining rounds *)

Lemma before_max t p h : h <= t -> forall a, before t p (Z.max h a) = before t p a.
Proof. intros H a. unfold before. destruct (Z.max_spec h a) as [[? ->]|[? ->]]; [reflexivity|]. replace (t <? h) with false by lia. replace (t <? a) with false by lia. reflexivity. Qed.

Lemma before_split t p a b : 0 < p -> a <= b -> before t p a + before (t + before t p a * p) p b = before t p b.
Proof.
  intros P AB. set (m := before t p a). pose proof (before_bounds t p a P) as [M0 M1]. fold m in M0, M1.
  destruct (Z.lt_ge_cases t a) as [TA|TA].
  2: { assert (m = 0) as -> by (unfold m, before; replace (t <? a) with false by lia; reflexivity). rewrite Z.mul_0_l, Z.add_0_r. reflexivity. }
  specialize (M1 TA). unfold before. replace (t <? b) with true by lia. destruct (t + m * p <? b) eqn:Q.
  - replace (b - t + p - 1) with (b - (t + m * p) + p - 1 + m * p) by ring. rewrite Z.div_add by lia. lia.
  - rewrite Z.add_0_r. apply Z.div_unique with (b - t + p - 1 - m * p); lia.
Qed.

Lemma edges_app p c a : forall k t b, edges (a + b) k t p c = edges a k t p c ++ edges b (k + Z.of_nat a) (t + Z.of_nat a * p) p c.
Proof.
  induction a as [|a IH]; intros k t b; cbn [Nat.add edges app].
  - f_equal; lia.
  - f_equal. rewrite IH. f_equal. f_equal; lia.
Qed.

Lemma shift_deltas now v p c n : forall last k t,
  map (fun tp => (now + fst tp, snd tp)) (chan_deltas v last (edges n k t p c)) = chan_deltas v last (edges n k (now + t) p c).
Proof. induction n as [|n IH]; intros last k t; cbn [edges chan_deltas map fst snd]; [reflexivity|]. rewrite IH. replace (now + (t + p)) with (now + t + p) by ring. reflexivity. Qed.

Lemma horizon_ge rs : forall now h, h <= horizon now h rs.
Proof. induction rs as [|[e d] rs IH]; intros now h; cbn [horizon]; [lia|]. pose proof (IH (now + d) (Z.max h (now + e))). lia. Qed.

Lemma end_safe u d : unit_safe u -> unit_safe (BKUnitEnd u d).
Proof.
  intros [W [T G]]. unfold BKUnitEnd. split; [apply wf_time_set; [exact W|apply u32_range]|]. split; [exact T|]. intros E. apply good_time. apply G. exact E.
Qed.

Lemma rounds_edges fuel c n rs : rounds_good fuel rs -> (c < Z.to_nat n)%nat -> forall u now h, unit_safe u -> tonal u -> un_ctx u = Some n -> vol u c <> 0 -> h <= now + un_time u ->
  exists u', rounds fuel u c now rs = Ok (u', chan_deltas (vol u c) (lastp u c)
    (edges (Z.to_nat (before (now + un_time u) (un_period u) (horizon now h rs))) (ph_phase (un_phase u)) (now + un_time u) (un_period u) (cycle u))).
Proof.
  intros G CN. induction G as [|[e d] rs (D & E1 & F) G IH]; intros u now h S T CX V H; cbn [rounds horizon].
  - exists u. assert (before (now + un_time u) (un_period u) h = 0) as -> by (unfold before; replace (now + un_time u <? h) with false by lia; reflexivity). reflexivity.
  - cbn [fst snd] in *. destruct (run_cycle fuel u e n c S T CX CN V ltac:(lia) E1 F) as (u1 & l & -> & S1 & T1 & C1 & P1 & X1 & V1 & TM & PH & LP & NT). cbn [bind].
    pose proof T as (_ & _ & _ & _ & P). set (p := un_period u) in *. set (m := before (un_time u) p e) in *. pose proof (before_bounds (un_time u) p e P) as [M0 M1]. fold m in M0, M1.
    pose proof (wf_time u1 (proj1 S1)) as WT1. assert (TE : e <= un_time u1) by (rewrite TM; destruct (Z.lt_ge_cases (un_time u) e); nia).
    assert (TU : un_time (BKUnitEnd u1 d) = un_time u1 - d) by (unfold BKUnitEnd; cbn [un_time set_time]; apply u32_id; lia).
    destruct (IH (BKUnitEnd u1 d) (now + d) (Z.max h (now + e))) as (u2 & E2).
    + apply end_safe. exact S1.
    + exact T1.
    + exact X1.
    + change (vol u1 c <> 0). congruence.
    + rewrite TU. lia.
    + rewrite E2. cbn [bind]. exists u2. f_equal. f_equal. rewrite NT, shift_deltas. rewrite TU.
      change (vol (BKUnitEnd u1 d) c) with (vol u1 c). change (lastp (BKUnitEnd u1 d) c) with (lastp u1 c). change (un_period (BKUnitEnd u1 d)) with (un_period u1). change (cycle (BKUnitEnd u1 d)) with (cycle u1).
      change (ph_phase (un_phase (BKUnitEnd u1 d))) with (ph_phase (un_phase u1)). rewrite V1, P1, C1, PH, LP.
      destruct (cycle_good u S T) as (PG & _). rewrite edges_shift by (intros Q; rewrite Q in PG; cbn [length] in PG; lia).
      replace (now + d + (un_time u1 - d)) with (now + un_time u + m * p) by lia.
      set (hz := horizon (now + d) (Z.max h (now + e)) rs). pose proof (horizon_ge rs (now + d) (Z.max h (now + e))) as HG. fold hz in HG.
      assert (MS : m = before (now + un_time u) p (now + e)).
      { unfold m, before. replace (now + un_time u <? now + e) with (un_time u <? e) by lia. replace (now + e - (now + un_time u)) with (e - un_time u) by ring. reflexivity. }
      pose proof (before_split (now + un_time u) p (now + e) hz P ltac:(lia)) as BS. rewrite <- MS in BS. rewrite <- BS.
      pose proof (before_bounds (now + un_time u + m * p) p hz P) as [B0 _].
      rewrite Z2Nat.inj_add by lia. rewrite edges_app, Z2Nat.id by lia.
      assert (LE : last_level (vol u c) (lastp u c) (edges (Z.to_nat m) (ph_phase (un_phase u)) (un_time u) p (cycle u)) = last_level (vol u c) (lastp u c) (edges (Z.to_nat m) (ph_phase (un_phase u)) (now + un_time u) p (cycle u))).
      { generalize (lastp u c), (ph_phase (un_phase u)), (un_time u). generalize (Z.to_nat m) as j. unfold last_level. induction j as [|j IHj]; intros x k t; cbn [edges fold_left snd]; [reflexivity|]. rewrite IHj. replace (now + (t + p)) with (now + t + p) by ring. reflexivity. }
      rewrite LE. symmetry. apply chan_deltas_app.
Qed.

Lemma heard_none v p c : 0 < p -> forall n last k t x, x < t -> heard (chan_deltas v last (edges n k t p c)) x = 0.
Proof.
  intros P. induction n as [|n IH]; intros last k t x X; cbn [edges chan_deltas]; [reflexivity|]. unfold heard. cbn [filter fst]. replace (t <=? x) with false by lia. apply IH. lia.
Qed.

Lemma heard_cons t d l x : heard ((t, d) :: l) x = (if t <=? x then d else 0) + heard l x.
Proof. unfold heard. cbn [filter fst]. destruct (t <=? x); reflexivity. Qed.

Lemma heard_edges v p c : 0 < p -> forall n last k t x, t <= x < t + Z.of_nat n * p ->
  last + heard (chan_deltas v last (edges n k t p c)) x = level v (value c (k + (x - t) / p)).
Proof.
  intros P. induction n as [|n IH]; intros last k t x X; [lia|]. cbn [edges chan_deltas]. rewrite heard_cons. replace (t <=? x) with true by lia.
  destruct (Z.lt_ge_cases x (t + p)) as [XP|XP].
  - rewrite heard_none by lia. rewrite Z.div_small by lia. replace (k + 0) with k by ring. lia.
  - specialize (IH (level v (value c k)) (k + 1) (t + p) x ltac:(lia)).
    replace ((x - t) / p) with ((x - (t + p)) / p + 1) by (rewrite <- Z.div_add by lia; f_equal; ring).
    replace (k + ((x - (t + p)) / p + 1)) with (k + 1 + (x - (t + p)) / p) by ring. lia.
Qed.

Lemma edges_times v p c : 0 < p -> forall n last k t h, t + Z.of_nat n * p < h + p -> Forall (fun tp => t <= fst tp < h /\ (fst tp - t) mod p = 0) (chan_deltas v last (edges n k t p c)).
Proof.
  intros P. induction n as [|n IH]; intros last k t h H; cbn [edges chan_deltas]; constructor.
  - cbn [fst]. rewrite Z.sub_diag. split; [nia|reflexivity].
  - eapply Forall_impl; [|apply (IH _ _ (t + p) h); lia]. intros [x y] (A & B). cbn [fst] in *. split; [lia|].
    replace (x - t) with (x - (t + p) + 1 * p) by ring. rewrite Z.mod_add by lia. exact B.
Qed.

(** ** C111 *)

(** However a unit is run and ended, the level of a channel is at every time the value of the
    waveform at this time: value number [(t - t0) / p] after the one at which it starts at time
    [t0].  It changes only at multiples of the period after that. *)
Theorem C111_waveform fuel u c n now rs : unit_safe u -> tonal u -> un_ctx u = Some n -> (c < Z.to_nat n)%nat -> vol u c <> 0 -> rounds_good fuel rs ->
  let t0 := now + un_time u in
  exists u' l, rounds fuel u c now rs = Ok (u', l) /\
    (forall t, t0 <= t < horizon now now rs ->
       lastp u c + heard l t = level (vol u c) (value (cycle u) (ph_phase (un_phase u) + (t - t0) / un_period u))) /\
    Forall (fun tp => t0 <= fst tp < horizon now now rs /\ (fst tp - t0) mod un_period u = 0) l.
Proof.
  intros S T CX CN V G t0. pose proof T as (_ & _ & _ & _ & P). pose proof (wf_time u (proj1 S)) as WT.
  destruct (rounds_edges fuel c n rs G CN u now now S T CX V ltac:(lia)) as (u' & E). fold t0 in E. exists u'. eexists. split; [exact E|].
  set (h := horizon now now rs) in *. pose proof (before_bounds t0 (un_period u) h P) as [B0 B1]. split.
  - intros t R. apply heard_edges; [exact P|]. rewrite Z2Nat.id by lia. specialize (B1 ltac:(lia)). lia.
  - destruct (Z.lt_ge_cases t0 h) as [TH|TH].
    + apply edges_times; [exact P|]. rewrite Z2Nat.id by lia. specialize (B1 TH). lia.
    + assert (before t0 (un_period u) h = 0) as -> by (unfold before; replace (t0 <? h) with false by lia; reflexivity). constructor.
Qed.

(** The waveform is repeated after exactly as many clock units as one cycle has: the number of
    values times the period.  The rounds do not add up to a drift. *)
Theorem C111_frequency fuel u c n now rs u' l t k : unit_safe u -> tonal u -> un_ctx u = Some n -> (c < Z.to_nat n)%nat -> vol u c <> 0 -> rounds_good fuel rs ->
  rounds fuel u c now rs = Ok (u', l) -> now + un_time u <= t -> 0 <= k ->
  t + k * (Z.of_nat (length (cycle u)) * un_period u) < horizon now now rs ->
  heard l (t + k * (Z.of_nat (length (cycle u)) * un_period u)) = heard l t.
Proof.
  intros S T CX CN V G E H K R. pose proof T as (_ & _ & _ & _ & P). destruct (cycle_good u S T) as (PG & _).
  destruct (C111_waveform fuel u c n now rs S T CX CN V G) as (u1 & l1 & E1 & HL & _). assert (l1 = l) as -> by congruence.
  set (len := Z.of_nat (length (cycle u))) in *. assert (K0 : 0 <= k * (len * un_period u)) by nia.
  pose proof (HL t ltac:(lia)) as H1. pose proof (HL (t + k * (len * un_period u)) ltac:(lia)) as H2.
  replace (t + k * (len * un_period u) - (now + un_time u)) with (t - (now + un_time u) + (k * len) * un_period u) in H2 by ring. rewrite Z.div_add in H2 by lia.
  assert (Q : forall a, value (cycle u) (a + k * len) = value (cycle u) a) by (intros a; unfold value; fold len; rewrite Z.mod_add by lia; reflexivity).
  rewrite Z.add_assoc, Q in H2. lia.
Qed.

(** A square wave in two channels, played in three rounds which do not fit its period. *)
Definition sounding : bkunit := unit_after BK_SQUARE plain.
Definition uneven : list (Z * Z) := [(1000, 777); (1450, 1450); (1999, 1234)].

Example C111_example : unit_safe sounding /\ tonal sounding /\ un_ctx sounding = Some 2 /\ vol sounding 1 <> 0 /\ rounds_good 5000 uneven /\ horizon 0 0 uneven = 4226 /\
  match rounds 5000 sounding 1 0 uneven with
  | Ok (_, l) => length l = 43%nat /\ heard l 799 = 0 /\ heard l 800 = 19999 /\ heard l 1000 = 0 /\ heard l 2400 = 19999 /\ heard l 4199 = 19999
  | Err _ => False
  end.
Proof.
  split; [apply plain_safe; auto|]. split; [vm_compute; intuition congruence|]. split; [reflexivity|]. split; [vm_compute; congruence|]. split.
  - unfold rounds_good, uneven. repeat constructor; cbn [fst snd]; lia.
  - split; [reflexivity|]. vm_compute. intuition congruence.
Qed.

Print Assumptions C111_waveform.
Print Assumptions C111_frequency.
Print Assumptions C111_example.
