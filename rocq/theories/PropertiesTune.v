(** Notes are in tune: C109. *)
From Verif Require Import CInt CIntFacts InterpModel ToneModel PropertiesTone UnitModel TrackModel TrackSpec TrackProofs PropertiesTrack.
Open Scope Z_scope.
Ltac Zify.zify_post_hook ::= idtac.

(** ** Specification *)

(** Equal temperament: note 45 ([BK_A_3]) has 440 Hz and 12 notes double the frequency, so the
    frequency [F] of note [n] has [F^12 = 440^12 * 2^(n - 45)].  A wave of [len / 2^20] samples
    at [rate] samples per second has the frequency [rate * 2^20 / len].  All numbers are
    multiplied by the denominators. *)

(** The wave is not lower than note [n]: [F <= rate * 2^20 / len]. *)
Definition not_flat (rate len n : Z) : Prop := len ^ 12 * 440 ^ 12 * 2 ^ n <= (rate * 2 ^ 20) ^ 12 * 2 ^ 45.
(** It is higher by at most [e] thousandths: [rate * 2^20 / len <= F * (1 + e / 1000)]. *)
Definition sharp_at_most (e rate len n : Z) : Prop := (rate * 2 ^ 20) ^ 12 * 2 ^ 45 * 1000 ^ 12 <= len ^ 12 * 440 ^ 12 * 2 ^ n * (1000 + e) ^ 12.

(** Thousandths: 4 up to [BK_D_SH_5], 7 up to [BK_E_6], 20 for all notes.  A semitone are 59. *)
Definition tolerance (n : Z) : Z := if n <=? 63 then 4 else if n <=? 76 then 7 else 20.

(** ** Proofs *)

Definition tuned (n : Z) : bool :=
  let p := tp n / 4 * 4 in
  (p ^ 12 * 440 ^ 12 * 2 ^ n <=? (2 ^ 20) ^ 12 * 2 ^ 45) && ((2 ^ 20) ^ 12 * 2 ^ 45 * 1000 ^ 12 <=? p ^ 12 * 440 ^ 12 * 2 ^ n * (1000 + tolerance n) ^ 12).
Lemma tuned_all : forallb (fun n => tuned (Z.of_nat n)) (seq 0 97) = true.
Proof. vm_compute. reflexivity. Qed.
Lemma tuned_note n : 0 <= n <= 96 -> tuned n = true.
Proof.
  intros N. pose proof tuned_all as A. rewrite forallb_forall in A. rewrite <- (Z2Nat.id n) by lia. apply A. apply in_seq. lia.
Qed.
Lemma pow12 a b : (a * b) ^ 12 = a ^ 12 * b ^ 12.
Proof. apply Z.pow_mul_l. Qed.
Lemma scale_flat r q k c b d : 0 <= r -> q ^ 12 * k * c <= b ^ 12 * d -> (r * q) ^ 12 * k * c <= (r * b) ^ 12 * d.
Proof.
  intros R H. rewrite !pow12. replace (r ^ 12 * q ^ 12 * k * c) with (r ^ 12 * (q ^ 12 * k * c)) by ring. replace (r ^ 12 * b ^ 12 * d) with (r ^ 12 * (b ^ 12 * d)) by ring.
  apply Z.mul_le_mono_nonneg_l; [apply Z.pow_nonneg; exact R|exact H].
Qed.
Lemma scale_sharp r q k c b d m e : 0 <= r -> b ^ 12 * d * m <= q ^ 12 * k * c * e -> (r * b) ^ 12 * d * m <= (r * q) ^ 12 * k * c * e.
Proof.
  intros R H. rewrite !pow12. replace (r ^ 12 * q ^ 12 * k * c * e) with (r ^ 12 * (q ^ 12 * k * c * e)) by ring. replace (r ^ 12 * b ^ 12 * d * m) with (r ^ 12 * (b ^ 12 * d * m)) by ring.
  apply Z.mul_le_mono_nonneg_l; [apply Z.pow_nonneg; exact R|exact H].
Qed.
Lemma longer_flat l p k c x : 0 <= l <= p -> 0 <= k -> 0 <= c -> p ^ 12 * k * c <= x -> l ^ 12 * k * c <= x.
Proof.
  intros L K C H. eapply Z.le_trans; [|exact H]. apply Z.mul_le_mono_nonneg_r; [exact C|]. apply Z.mul_le_mono_nonneg_r; [exact K|]. apply Z.pow_le_mono_l. exact L.
Qed.
Lemma longer_sharp l p k c x a b : 0 <= p * a <= l * b -> 0 <= k -> 0 <= c -> x <= p ^ 12 * k * c * a ^ 12 -> x <= l ^ 12 * k * c * b ^ 12.
Proof.
  intros L K C H. eapply Z.le_trans; [exact H|]. replace (p ^ 12 * k * c * a ^ 12) with ((p * a) ^ 12 * (k * c)) by (rewrite pow12; ring).
  replace (l ^ 12 * k * c * b ^ 12) with ((l * b) ^ 12 * (k * c)) by (rewrite pow12; ring). apply Z.mul_le_mono_nonneg_r; [apply Z.mul_nonneg_nonneg; assumption|]. apply Z.pow_le_mono_l. exact L.
Qed.
Lemma tolerance_bounds n : 4 <= tolerance n <= 20.
Proof. unfold tolerance. destruct (n <=? 63); [lia|]. destruct (n <=? 76); lia. Qed.

(** * C109 *)

(** Every note at every sample rate is at least as high as it should be and at most by its tolerance higher. *)
Theorem C109_notes_partial n rate : 0 <= n <= 96 -> 16000 <= rate <= 96000 ->
  exists p, BKTonePeriodLookup (n * 1048576) rate = Ok p /\ not_flat rate p n /\ sharp_at_most (tolerance n) rate p n.
Proof.
  intros N R. rewrite tone_at_note by lia. eexists. split; [reflexivity|]. pose proof (tuned_note n N) as T. unfold tuned in T.
  apply andb_true_iff in T. destruct T as [T1 T2]. apply Z.leb_le in T1, T2. unfold not_flat, sharp_at_most.
  replace (tp n / 4 * rate * 4) with (rate * (tp n / 4 * 4)) by ring. split; [apply scale_flat|apply scale_sharp]; try assumption; lia.
Qed.
Example C109_notes_example : BKTonePeriodLookup (45 * 1048576) 44100 = Ok 104958000 /\ not_flat 44100 104958000 45 /\ sharp_at_most 2 44100 104958000 45 /\ ~ sharp_at_most 1 44100 104958000 45.
Proof. split; [vm_compute; reflexivity|]. split; [vm_compute; discriminate|]. split; [vm_compute; discriminate|]. intros H. vm_compute in H. apply H. reflexivity. Qed.

(** In between, as in slides of notes, the frequency lies between those of the notes. *)
Theorem C109_between n tone rate : 0 <= n < 96 -> n * 1048576 <= tone <= (n + 1) * 1048576 -> 16000 <= rate <= 96000 ->
  exists p, BKTonePeriodLookup tone rate = Ok p /\ not_flat rate p n /\ sharp_at_most (tolerance (n + 1)) rate p (n + 1).
Proof.
  intros N T R. destruct (C109_notes_partial n rate) as (p1 & E1 & F1 & _); [lia|exact R|]. destruct (C109_notes_partial (n + 1) rate) as (p2 & E2 & _ & S2); [lia|exact R|].
  destruct (tone_bounds tone rate) as (p & E & B). exists p. split; [exact E|].
  pose proof (tone_mono _ _ _ _ _ _ (proj1 T) (Z.le_refl rate) E1 E) as M1. pose proof (tone_mono _ _ _ _ _ _ (proj2 T) (Z.le_refl rate) E E2) as M2.
  destruct (tone_bounds ((n + 1) * 1048576) rate) as (p2' & E2' & B2). assert (p2' = p2) as -> by congruence.
  pose proof (tolerance_bounds (n + 1)) as TB. split.
  - apply (longer_flat p p1); [lia|apply Z.pow_nonneg; lia|apply Z.pow_nonneg; lia|exact F1].
  - apply (longer_sharp p p2 _ _ _ (1000 + tolerance (n + 1))); [nia|apply Z.pow_nonneg; lia|apply Z.pow_nonneg; lia|exact S2].
Qed.
Example C109_between_example : exists p, BKTonePeriodLookup (57 * 1048576 + 500000) 44100 = Ok p /\ not_flat 44100 p 57 /\ sharp_at_most (tolerance 58) 44100 p 58.
Proof. apply C109_between; lia. Qed.

(** [BK_F_7] is too high by more than 19 thousandths, a third of a semitone. *)
Theorem C109_high_notes_refuted : exists n rate p, 0 <= n <= 96 /\ rate = 44100 /\ BKTonePeriodLookup (n * 1048576) rate = Ok p /\ ~ sharp_at_most 19 rate p n.
Proof.
  exists 89, 44100, 8114400. split; [lia|]. split; [reflexivity|]. split; [vm_compute; reflexivity|]. intros H. vm_compute in H. apply H. reflexivity.
Qed.

(** ** Tracks *)

(** A whole number of steps per wave costs less than one thousandth. *)
Lemma steps_cost p count e rate n : 1984000 <= p -> 2 <= count <= 64 -> 0 <= e <= 999 -> sharp_at_most e rate p n -> not_flat rate p n ->
  not_flat rate (count * (p / count)) n /\ sharp_at_most (e + 1) rate (count * (p / count)) n.
Proof.
  intros P C E S F. pose proof (Z.div_mod p count ltac:(lia)) as D. pose proof (Z.mod_pos_bound p count ltac:(lia)) as M. set (l := count * (p / count)) in *.
  assert (L : p - 63 <= l <= p) by lia. assert (K : 0 <= 2 ^ n) by (apply Z.pow_nonneg; lia). assert (A : 0 <= 440 ^ 12) by (apply Z.pow_nonneg; lia). split.
  - apply (longer_flat l p); [lia|exact A|exact K|exact F].
  - apply (longer_sharp l p _ _ _ (1000 + e)); [|exact A|exact K|exact S]. clear - P E L. split; [nia|].
    assert (X : (p - 63) * (1000 + (e + 1)) <= l * (1000 + (e + 1))) by (apply Z.mul_le_mono_nonneg_r; lia). assert (Y : 63 * (1000 + (e + 1)) <= p) by lia. lia.
Qed.

(** A note of a track without effects, set after the track was attached, is played in tune: the steps of
    its wave, together, are as long as they should be. *)
Theorem C109_track_partial fuel t n rate time note j t1 : reachable fuel t -> has t FInstr = false -> any_effect t = false -> has t FArp = false ->
  sl_steps (tr_note t) = 0 -> sl_roundBias (tr_note t) = 0 -> tr_pitch t = 0 -> 1 <= n <= 8 -> in_u32 time = true -> sm_numChannels (un_sample (tr_unit t)) <= 1 ->
  BKTrackAttach t n rate time = Ok (t1, 0) -> 0 <= note <= 96 -> (1 <= j)%nat -> tr_waveform t <> BK_SAMPLE -> 16000 <= rate <= 96000 ->
  exists t2 t3, BKTrackSetAttr fuel t1 BK_NOTE (note * 1048576) = Ok (t2, 0) /\ ticks fuel j t2 = Ok t3 /\
    (2 <= ph_count (un_phase (tr_unit t3)) <= 64 -> exists step, BKTrackGetAttr t3 BK_PERIOD = Ok (0, Some step) /\
       not_flat rate (ph_count (un_phase (tr_unit t3)) * step) note /\ sharp_at_most (tolerance note + 1) rate (ph_count (un_phase (tr_unit t3)) * step) note).
Proof.
  intros R HI HE HA S0 B0 P0 Hn HT HS EA HV HJ HW HR.
  destruct (attach_rate_partial fuel t n rate time (note * 1048576) j t1) as (t2 & t3 & p & E2 & E3 & EP & G); try assumption; [lia|].
  exists t2, t3. split; [exact E2|]. split; [exact E3|]. intros C. specialize (G ltac:(lia)). rewrite Z.min_r in G by lia. rewrite P0, Z.add_0_r, Z.min_l in EP by (change MAX_NOTE with 100663296; lia).
  exists (p / ph_count (un_phase (tr_unit t3))). split; [exact G|].
  destruct (C109_notes_partial note rate) as (p' & E & F & S); [exact HV|exact HR|]. assert (p' = p) as -> by congruence.
  destruct (tone_bounds (note * 1048576) rate) as (p' & E' & B). assert (p' = p) as -> by congruence.
  destruct (steps_cost p (ph_count (un_phase (tr_unit t3))) (tolerance note) rate note) as [X Y]; try assumption; [lia|pose proof (tolerance_bounds note); lia|].
  split; [exact X|exact Y].
Qed.
Example C109_track_example : let t := track_after BK_SQUARE [OAttach 2 44100 0; OAttr BK_NOTE 50331648; OTick; OAttr BK_NOTE (-2); ODetach] in
  exists t1, BKTrackAttach t 2 22050 0 = Ok (t1, 0) /\
  exists t2 t3, BKTrackSetAttr 1000 t1 BK_NOTE (45 * 1048576) = Ok (t2, 0) /\ ticks 1000 2 t2 = Ok t3 /\ ph_count (un_phase (tr_unit t3)) = 16 /\ 
    exists step, BKTrackGetAttr t3 BK_PERIOD = Ok (0, Some step) /\ not_flat 22050 (16 * step) 45 /\ sharp_at_most 5 22050 (16 * step) 45.
Proof.
  intros t. eexists. split; [vm_compute; reflexivity|].
  edestruct (C109_track_partial 1000 t 2 22050 0 45 2) as (t2 & t3 & E2 & E3 & G).
  { unfold t. fines. } 1-6: vm_compute; reflexivity. { lia. } { reflexivity. } { vm_compute. discriminate. } { vm_compute. reflexivity. } { lia. } { lia. } { vm_compute. discriminate. } { lia. }
  exists t2, t3. split; [exact E2|]. split; [exact E3|]. assert (C : ph_count (un_phase (tr_unit t3)) = 16).
  { vm_compute in E2. injection E2 as <-. vm_compute in E3. injection E3 as <-. reflexivity. }
  split; [exact C|]. rewrite C in G. apply G. lia.
Qed.

(** ** Samples *)

(** The speed [q / 2^20] at which a sample is played: note 48 ([BK_C_4]) is 1 and 12 notes double it. *)
Definition log_tuned (n : Z) : bool := let q := lp n * 4 in (q ^ 12 * 2 ^ 48 <=? 2 ^ (240 + n)) && (2 ^ (240 + n) * 10000 ^ 12 <=? q ^ 12 * 2 ^ 48 * 10001 ^ 12).
Lemma log_tuned_all : forallb (fun n => log_tuned (Z.of_nat n)) (seq 0 97) = true.
Proof. vm_compute. reflexivity. Qed.
Theorem C109_samples n : 0 <= n <= 96 ->
  exists q, BKLog2PeriodLookup (n * 1048576) = Ok q /\ q ^ 12 * 2 ^ 48 <= 2 ^ 240 * 2 ^ n /\ 2 ^ 240 * 2 ^ n * 10000 ^ 12 <= q ^ 12 * 2 ^ 48 * 10001 ^ 12.
Proof.
  intros N. rewrite log_lookup_eq. replace (ctone (n * 1048576)) with (n * 1048576)
    by (unfold ctone, BKClamp; destruct (_ <? 0) eqn:?; [lia|]; destruct (_ >? _) eqn:?; lia).
  unfold log_interp. cbv zeta. rewrite Z.div_mul, Z.mod_mul by lia. change (0 / 4096) with 0.
  replace (lp n * (256 - 0) + lp (next n) * 0) with (lp n * 4 * 64) by ring. rewrite Z.div_mul by lia. eexists. split; [reflexivity|].
  pose proof log_tuned_all as A. rewrite forallb_forall in A. specialize (A (Z.to_nat n)). rewrite Z2Nat.id in A by lia. specialize (A ltac:(apply in_seq; lia)).
  unfold log_tuned in A. apply andb_true_iff in A. destruct A as [A B]. apply Z.leb_le in A, B. rewrite Z.pow_add_r in A, B by lia. split; assumption.
Qed.
Example C109_samples_example : BKLog2PeriodLookup (51 * 1048576) = Ok 1246972.
Proof. vm_compute. reflexivity. Qed.

Print Assumptions C109_notes_partial.
Print Assumptions C109_between.
Print Assumptions C109_high_notes_refuted.
Print Assumptions C109_track_partial.
Print Assumptions C109_samples.
