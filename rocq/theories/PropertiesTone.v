(** Properties of the note tables: C09, C10. *)
From Verif Require Import CIntFacts ToneModel.

Definition tp (n : Z) : Z := nth (Z.to_nat n) tonePeriods 0.
Definition lp (n : Z) : Z := nth (Z.to_nat n) log2Periods 0 / 4.

Definition notes : list Z := map Z.of_nat (seq 0 97).

Lemma notes_In n : 0 <= n <= 96 -> In n notes.
Proof.
  intros H. unfold notes. apply in_map_iff. exists (Z.to_nat n). split; [lia|]. apply in_seq. lia.
Qed.

Lemma tp_table n m : 0 <= n <= m -> m <= 96 ->
  tp m <= tp n /\ 125 <= tp n <= 32063 /\ (n < m -> tp m / 4 < tp n / 4).
Proof.
  intros H1 H2.
  assert (K : forallb (fun n => forallb (fun m => (m <? n) ||
     ((tp m <=? tp n) && (125 <=? tp n) && (tp n <=? 32063) && ((m <=? n) || (tp m / 4 <? tp n / 4)))) notes) notes = true)
    by (vm_compute; reflexivity).
  rewrite forallb_forall in K. specialize (K n (notes_In n ltac:(lia))).
  rewrite forallb_forall in K. specialize (K m (notes_In m ltac:(lia))). lia.
Qed.

Lemma lp_table n m : 0 <= n <= m -> m <= 96 ->
  lp n <= lp m /\ 16384 <= lp n <= 4194304 /\ (n < m -> lp n < lp m).
Proof.
  intros H1 H2.
  assert (K : forallb (fun n => forallb (fun m => (m <? n) ||
     ((lp n <=? lp m) && (16384 <=? lp n) && (lp n <=? 4194304) && ((m <=? n) || (lp n <? lp m)))) notes) notes = true)
    by (vm_compute; reflexivity).
  rewrite forallb_forall in K. specialize (K n (notes_In n ltac:(lia))).
  rewrite forallb_forall in K. specialize (K m (notes_In m ltac:(lia))). lia.
Qed.

Lemma clamp_range a l h : l <= h -> l <= BKClamp a l h <= h.
Proof. unfold BKClamp. intros. destruct (a <? l) eqn:?; [lia|]. destruct (a >? h) eqn:?; lia. Qed.

Lemma clamp_mono a b l h : l <= h -> a <= b -> BKClamp a l h <= BKClamp b l h.
Proof.
  unfold BKClamp. intros.
  destruct (a <? l) eqn:?; destruct (b <? l) eqn:?; destruct (a >? h) eqn:?; destruct (b >? h) eqn:?; lia.
Qed.

(** Linear interpolation between two neighbouring table entries. *)
Definition next (n : Z) : Z := Z.min (n + 1) 96.
Definition tone_interp (t : Z) : Z :=
  let n := t / 1048576 in let f := t mod 1048576 / 16 in tp n * (65536 - f) + tp (next n) * f.
Definition log_interp (t : Z) : Z :=
  let n := t / 1048576 in let f := t mod 1048576 / 4096 in lp n * (256 - f) + lp (next n) * f.

Lemma tone_interp_bounds t : 0 <= t <= 100663296 ->
  tp (next (t / 1048576)) * 65536 <= tone_interp t <= tp (t / 1048576) * 65536.
Proof.
  intros H. unfold tone_interp. cbv zeta.
  set (n := t / 1048576). set (f := t mod 1048576 / 16).
  assert (Hn : 0 <= n <= 96) by (unfold n; lia). assert (Hf : 0 <= f <= 65535) by (unfold f; lia).
  destruct (tp_table n (next n)) as (K & _); unfold next in *; try lia. nia.
Qed.

Lemma log_interp_bounds t : 0 <= t <= 100663296 ->
  lp (t / 1048576) * 256 <= log_interp t <= lp (next (t / 1048576)) * 256.
Proof.
  intros H. unfold log_interp. cbv zeta.
  set (n := t / 1048576). set (f := t mod 1048576 / 4096).
  assert (Hn : 0 <= n <= 96) by (unfold n; lia). assert (Hf : 0 <= f <= 255) by (unfold f; lia).
  destruct (lp_table n (next n)) as (K & _); unfold next in *; try lia. nia.
Qed.

Lemma tone_interp_mono t u : 0 <= t <= u -> u <= 100663296 -> tone_interp u <= tone_interp t.
Proof.
  intros H1 H2. destruct (Z.eq_dec (t / 1048576) (u / 1048576)) as [E|E].
  - unfold tone_interp. cbv zeta. rewrite <- E.
    assert (F : t mod 1048576 / 16 <= u mod 1048576 / 16) by lia.
    destruct (tp_table (t / 1048576) (next (t / 1048576))) as (K & _); unfold next in *; try lia. nia.
  - assert (L : t / 1048576 + 1 <= u / 1048576) by lia.
    assert (B1 := tone_interp_bounds t ltac:(lia)). assert (B2 := tone_interp_bounds u ltac:(lia)).
    destruct (tp_table (next (t / 1048576)) (u / 1048576)) as (K & _); unfold next in *; lia.
Qed.

Lemma log_interp_mono t u : 0 <= t <= u -> u <= 100663296 -> log_interp t <= log_interp u.
Proof.
  intros H1 H2. destruct (Z.eq_dec (t / 1048576) (u / 1048576)) as [E|E].
  - unfold log_interp. cbv zeta. rewrite <- E.
    assert (F : t mod 1048576 / 4096 <= u mod 1048576 / 4096) by lia.
    destruct (lp_table (t / 1048576) (next (t / 1048576))) as (K & _); unfold next in *; try lia. nia.
  - assert (L : t / 1048576 + 1 <= u / 1048576) by lia.
    assert (B1 := log_interp_bounds t ltac:(lia)). assert (B2 := log_interp_bounds u ltac:(lia)).
    destruct (lp_table (next (t / 1048576)) (u / 1048576)) as (K & _); unfold next in *; lia.
Qed.

Definition ctone (t : Z) : Z := BKClamp t 0 100663296.
Definition crate (r : Z) : Z := BKClamp r 16000 96000.

Lemma ctone_low t : t <= 0 -> ctone t = ctone 0.
Proof. intros. unfold ctone, BKClamp. cbn. destruct (t <? 0) eqn:?; [reflexivity|]. destruct (t >? 100663296) eqn:?; lia. Qed.
Lemma ctone_high t : 100663296 <= t -> ctone t = ctone 100663296.
Proof. intros. unfold ctone, BKClamp. cbn. destruct (t <? 0) eqn:?; [lia|]. destruct (t >? 100663296) eqn:?; lia. Qed.

Lemma min_next n : BKMin (n + 1) 96 = next n.
Proof. unfold BKMin, next. destruct (n + 1 <? 96) eqn:?; lia. Qed.

Lemma tone_lookup_eq tone rate :
  BKTonePeriodLookup tone rate = Ok (tone_interp (ctone tone) / 262144 * crate rate * 4).
Proof.
  unfold BKTonePeriodLookup, BK_MIN_NOTE, BK_MAX_NOTE, BK_MIN_SAMPLE_RATE, BK_MAX_SAMPLE_RATE.
  change (0 * 2 ^ 20) with 0. change (96 * 2 ^ 20) with 100663296. fold (ctone tone) (crate rate).
  change (20 - 16) with 4. change (18 - 16) with 2.
  unfold BK_FINT20_FRAC. rewrite land_frac, !shiftr_div by lia.
  change (2 ^ 4) with 16. change (2 ^ 20) with 1048576.
  assert (Ht : 0 <= ctone tone <= 100663296) by (apply clamp_range; lia).
  assert (Hr : 16000 <= crate rate <= 96000) by (apply clamp_range; lia).
  set (t := ctone tone) in *. set (r := crate rate) in *.
  assert (B := tone_interp_bounds t Ht).
  set (n := t / 1048576) in *. set (f := t mod 1048576 / 16) in *.
  assert (Hn : 0 <= n <= 96) by (unfold n; lia). assert (Hf : 0 <= f <= 65535) by (unfold f; lia).
  rewrite min_next. assert (Hx : 0 <= next n <= 96) by (unfold next; lia).
  rewrite (aget_nth tonePeriods n 0) by (change (Z.of_nat (length tonePeriods)) with 97; lia).
  rewrite (aget_nth tonePeriods (next n) 0) by (change (Z.of_nat (length tonePeriods)) with 97; lia).
  cbn [bind]. fold (tp n) (tp (next n)). f_equal.
  rewrite Z.shiftl_mul_pow2, shiftr_div by lia. change (2 ^ 18) with 262144. change (2 ^ 2) with 4.
  destruct (tp_table n n) as (_ & P1 & _); try lia. destruct (tp_table (next n) (next n)) as (_ & P2 & _); try lia.
  rewrite (u32_id (65536 - f)) by lia.
  rewrite (u32_id (tp n * (65536 - f))) by nia. rewrite (u32_id (tp (next n) * f)) by nia.
  change (tp n * (65536 - f) + tp (next n) * f) with (tone_interp t).
  assert (T1 : 0 <= tone_interp t <= 2101280768) by lia.
  rewrite (u32_id (tone_interp t)) by lia.
  assert (T2 : 0 <= tone_interp t / 262144 <= 8015) by lia.
  rewrite (u32_id (_ * r)) by nia. rewrite u32_id by nia. reflexivity.
Qed.

Lemma log_lookup_eq tone : BKLog2PeriodLookup tone = Ok (log_interp (ctone tone) / 64).
Proof.
  unfold BKLog2PeriodLookup, BK_MIN_NOTE, BK_MAX_NOTE.
  change (0 * 2 ^ 20) with 0. change (96 * 2 ^ 20) with 100663296. fold (ctone tone).
  unfold BK_FINT20_FRAC, BK_FINT20_UNIT. change (Z.shiftr 1048576 12) with 256.
  rewrite land_frac, !shiftr_div by lia.
  change (2 ^ 12) with 4096. change (2 ^ 20) with 1048576.
  assert (Ht : 0 <= ctone tone <= 100663296) by (apply clamp_range; lia).
  set (t := ctone tone) in *. assert (B := log_interp_bounds t Ht).
  set (n := t / 1048576) in *. set (f := t mod 1048576 / 4096) in *.
  assert (Hn : 0 <= n <= 96) by (unfold n; lia). assert (Hf : 0 <= f <= 255) by (unfold f; lia).
  rewrite min_next. assert (Hx : 0 <= next n <= 96) by (unfold next; lia).
  rewrite (aget_nth log2Periods n 0) by (change (Z.of_nat (length log2Periods)) with 97; lia).
  rewrite (aget_nth log2Periods (next n) 0) by (change (Z.of_nat (length log2Periods)) with 97; lia).
  cbn [bind]. rewrite !shiftr_div by lia. change (2 ^ 2) with 4. change (2 ^ 6) with 64. fold (lp n) (lp (next n)).
  destruct (lp_table n n) as (_ & P1 & _); try lia. destruct (lp_table (next n) (next n)) as (_ & P2 & _); try lia.
  rewrite (u32_id (256 - f)) by lia.
  rewrite (u32_id (lp n * (256 - f))) by nia. rewrite (u32_id (lp (next n) * f)) by nia.
  change (lp n * (256 - f) + lp (next n) * f) with (log_interp t).
  rewrite (u32_id (log_interp t)) by lia. reflexivity.
Qed.

Lemma tone_bounds tone rate : exists p, BKTonePeriodLookup tone rate = Ok p /\ 1984000 <= p <= 3077760000.
Proof.
  rewrite tone_lookup_eq. eexists. split; [reflexivity|].
  assert (Ht : 0 <= ctone tone <= 100663296) by (apply clamp_range; lia).
  assert (Hr : 16000 <= crate rate <= 96000) by (apply clamp_range; lia).
  assert (B := tone_interp_bounds _ Ht).
  destruct (tp_table (ctone tone / 1048576) (ctone tone / 1048576)) as (_ & P1 & _); try lia.
  destruct (tp_table (next (ctone tone / 1048576)) (next (ctone tone / 1048576))) as (_ & P2 & _); unfold next in *; try lia.
  assert (T2 : 31 <= tone_interp (ctone tone) / 262144 <= 8015) by lia. nia.
Qed.

Lemma div_mono a b c : 0 < c -> a <= b -> a / c <= b / c.
Proof. intros. apply Z.div_le_mono; lia. Qed.

Lemma tone_mono tone tone' rate rate' p p' : tone <= tone' -> rate' <= rate ->
  BKTonePeriodLookup tone rate = Ok p -> BKTonePeriodLookup tone' rate' = Ok p' -> p' <= p.
Proof.
  intros H1 H2. rewrite !tone_lookup_eq. intros E1 E2. inversion E1; inversion E2; subst. clear E1 E2.
  assert (Ht : 0 <= ctone tone <= 100663296) by (apply clamp_range; lia).
  assert (Ht' : 0 <= ctone tone' <= 100663296) by (apply clamp_range; lia).
  assert (Hr : 16000 <= crate rate <= 96000) by (apply clamp_range; lia).
  assert (Hr' : 16000 <= crate rate' <= 96000) by (apply clamp_range; lia).
  assert (M1 : ctone tone <= ctone tone') by (apply clamp_mono; lia).
  assert (M2 : crate rate' <= crate rate) by (apply clamp_mono; lia).
  assert (M3 := tone_interp_mono _ _ (conj (proj1 Ht) M1) (proj2 Ht')).
  apply (div_mono _ _ 262144) in M3; [|lia].
  assert (B := tone_interp_bounds _ Ht').
  destruct (tp_table (next (ctone tone' / 1048576)) (next (ctone tone' / 1048576))) as (_ & P2 & _); unfold next in *; try lia.
  assert (0 <= tone_interp (ctone tone') / 262144) by lia. nia.
Qed.

Lemma tone_at_note n rate : 0 <= n <= 96 -> 16000 <= rate <= 96000 ->
  BKTonePeriodLookup (n * 1048576) rate = Ok (tp n / 4 * rate * 4).
Proof.
  intros Hn Hr. rewrite tone_lookup_eq.
  replace (ctone (n * 1048576)) with (n * 1048576)
    by (unfold ctone, BKClamp; destruct (_ <? 0) eqn:?; [lia|]; destruct (_ >? _) eqn:?; lia).
  replace (crate rate) with rate
    by (unfold crate, BKClamp; destruct (_ <? _) eqn:?; [lia|]; destruct (_ >? _) eqn:?; lia).
  unfold tone_interp. cbv zeta. rewrite Z.div_mul, Z.mod_mul by lia.
  change (0 / 16) with 0. replace (tp n * (65536 - 0) + tp (next n) * 0) with (tp n * 65536) by lia.
  do 2 f_equal. f_equal. lia.
Qed.

(** ** C09 *)
Theorem C09_tone_total : forall tone rate, exists p,
  BKTonePeriodLookup tone rate = Ok p /\ 1984000 <= p <= 3077760000.
Proof. exact tone_bounds. Qed.

Theorem C09_tone_clamps : forall tone rate,
  (tone <= 0 -> BKTonePeriodLookup tone rate = BKTonePeriodLookup 0 rate) /\
  (100663296 <= tone -> BKTonePeriodLookup tone rate = BKTonePeriodLookup 100663296 rate).
Proof.
  intros tone rate. rewrite !tone_lookup_eq. split; intros H.
  - rewrite (ctone_low tone H). reflexivity.
  - rewrite (ctone_high tone H). reflexivity.
Qed.

Theorem C09_tone_monotone : forall tone tone' rate rate' p p', tone <= tone' -> rate' <= rate ->
  BKTonePeriodLookup tone rate = Ok p -> BKTonePeriodLookup tone' rate' = Ok p' -> p' <= p.
Proof. exact tone_mono. Qed.

(** Different semitones always have different periods. *)
Theorem C09_semitones_differ : forall n m rate p p', 0 <= n < m -> m <= 96 -> 16000 <= rate <= 96000 ->
  BKTonePeriodLookup (n * 1048576) rate = Ok p -> BKTonePeriodLookup (m * 1048576) rate = Ok p' -> p' < p.
Proof.
  intros n m rate p p' H1 H2 Hr. rewrite !tone_at_note by lia. intros E1 E2. inversion E1; inversion E2; subst.
  destruct (tp_table n m) as (_ & _ & K); try lia. specialize (K ltac:(lia)). nia.
Qed.

Example C09_example : BKTonePeriodLookup (57 * 1048576 + 500000) 44100 = Ok 50979600.
Proof. vm_compute. reflexivity. Qed.

(** ** C10 *)
Theorem C10_log2_total : forall tone, exists p, BKLog2PeriodLookup tone = Ok p /\ 65536 <= p <= 16777216.
Proof.
  intros tone. rewrite log_lookup_eq. eexists. split; [reflexivity|].
  assert (Ht : 0 <= ctone tone <= 100663296) by (apply clamp_range; lia).
  assert (B := log_interp_bounds _ Ht).
  destruct (lp_table (ctone tone / 1048576) (ctone tone / 1048576)) as (_ & P1 & _); try lia.
  destruct (lp_table (next (ctone tone / 1048576)) (next (ctone tone / 1048576))) as (_ & P2 & _); unfold next in *; lia.
Qed.

Theorem C10_log2_monotone : forall tone tone' p p', tone <= tone' ->
  BKLog2PeriodLookup tone = Ok p -> BKLog2PeriodLookup tone' = Ok p' -> p <= p'.
Proof.
  intros tone tone' p p' H. rewrite !log_lookup_eq. intros E1 E2. inversion E1; inversion E2; subst.
  assert (Ht : 0 <= ctone tone <= 100663296) by (apply clamp_range; lia).
  assert (Ht' : 0 <= ctone tone' <= 100663296) by (apply clamp_range; lia).
  assert (M1 : ctone tone <= ctone tone') by (apply clamp_mono; lia).
  apply div_mono; [lia|]. apply log_interp_mono; lia.
Qed.

Theorem C10_log2_clamps : forall tone,
  (tone <= 0 -> BKLog2PeriodLookup tone = BKLog2PeriodLookup 0) /\
  (100663296 <= tone -> BKLog2PeriodLookup tone = BKLog2PeriodLookup 100663296).
Proof.
  intros tone. rewrite !log_lookup_eq. split; intros H.
  - rewrite (ctone_low tone H). reflexivity.
  - rewrite (ctone_high tone H). reflexivity.
Qed.

Theorem C10_log2_reference : BKLog2PeriodLookup (48 * 1048576) = Ok 1048576.
Proof. vm_compute. reflexivity. Qed.

(** Up to the truncation of the table entries one octave doubles the speed. *)
Theorem C10_log2_octave : forall n, 0 <= n <= 84 -> exists p q,
  BKLog2PeriodLookup (n * 1048576) = Ok p /\ BKLog2PeriodLookup ((n + 12) * 1048576) = Ok q /\
  -4 <= q - 2 * p <= 4.
Proof.
  intros n Hn.
  assert (K : forallb (fun n => match BKLog2PeriodLookup (n * 1048576), BKLog2PeriodLookup ((n + 12) * 1048576) with
     | Ok p, Ok q => (-4 <=? q - 2 * p) && (q - 2 * p <=? 4) | _, _ => false end)
     (map Z.of_nat (seq 0 85)) = true) by (vm_compute; reflexivity).
  rewrite forallb_forall in K. specialize (K n).
  assert (I : In n (map Z.of_nat (seq 0 85))).
  { apply in_map_iff. exists (Z.to_nat n). split; [lia|]. apply in_seq. lia. }
  specialize (K I).
  destruct (BKLog2PeriodLookup (n * 1048576)) as [p|]; [|discriminate].
  destruct (BKLog2PeriodLookup ((n + 12) * 1048576)) as [q|]; [|discriminate].
  exists p, q. repeat split; lia.
Qed.

Print Assumptions C09_tone_total.
Print Assumptions C09_tone_clamps.
Print Assumptions C09_tone_monotone.
Print Assumptions C09_semitones_differ.
Print Assumptions C10_log2_total.
Print Assumptions C10_log2_monotone.
Print Assumptions C10_log2_clamps.
Print Assumptions C10_log2_reference.
Print Assumptions C10_log2_octave.
