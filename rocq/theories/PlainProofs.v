(** Units without tracks: what they add to the channels of a context, and what is read. *)
From Verif Require Import CInt CIntFacts TimeModel Kernels BufferModel BufferSpec BufferProofs BufferProofs2 DataModel UnitModel UnitSpec UnitProofs UnitProofs2 UnitProofs3 UnitProofs4
  UnitInv UnitInv2 UnitInv3 UnitProofs5 TrackModel UnitShift MixSpec MixProofs ContextModel ContextSame ContextRun ContextChunk ContextGen ContextGen2 UnitQuiet SafeBuffer SafeRun SafeLoop
  PropertiesPeriod PlainModel.
Ltac Zify.zify_post_hook ::= idtac.

(** The pulses of a unit in channel [k] before the time [stop]. *)
Definition wave_pulses (u : bkunit) (k : nat) (stop : Z) : list (Z * Z) :=
  if vol u k =? 0 then []
  else chan_deltas (vol u k) (lastp u k)
         (edges (Z.to_nat (before (un_time u) (un_period u) stop)) (ph_phase (un_phase u)) (un_time u) (un_period u) (cycle u)).

(** The largest volume or level of a unit. *)
Definition loudest (u : bkunit) : Z := fold_right Z.max 0 (un_volume u ++ map Z.abs (un_lastPulse u)).
Definition audible (n : Z) (u : bkunit) : Prop := exists c, (c < Z.to_nat n)%nat /\ vol u c <> 0.

(** The unit [v] is what the unit [u] has become after running to time [h], times being
    relative to [now]. *)
Record at_time (n : Z) (u : bkunit) (now h : Z) (v : bkunit) : Prop := {
  at_safe : unit_safe v;
  at_tonal : tonal v;
  at_cycle : cycle v = cycle u;
  at_period : un_period v = un_period u;
  at_ctx : un_ctx v = Some n;
  at_volume : un_volume v = un_volume u;
  at_h : h <= now + un_time v;
  at_state : audible n u -> let m := before (un_time u) (un_period u) h in
    now + un_time v = un_time u + m * un_period u /\
    ph_phase (un_phase v) = (ph_phase (un_phase u) + m) mod Z.of_nat (length (cycle u)) /\
    forall k, (k < Z.to_nat n)%nat -> vol u k <> 0 ->
      lastp v k = last_level (vol u k) (lastp u k) (edges (Z.to_nat m) (ph_phase (un_phase u)) (un_time u) (un_period u) (cycle u)) }.

Lemma last_level_times v p c now n : forall last k t, last_level v last (edges n k t p c) = last_level v last (edges n k (now + t) p c).
Proof.
  unfold last_level. induction n as [|n IH]; intros x k t; cbn [edges fold_left snd]; [reflexivity|]. rewrite IH. replace (now + (t + p)) with (now + t + p) by ring. reflexivity.
Qed.

Lemma before_move now t p e : before (now + t) p (now + e) = before t p e.
Proof. unfold before. replace (now + t <? now + e) with (t <? e) by lia. replace (now + e - (now + t)) with (e - t) by ring. reflexivity. Qed.

Lemma silent_or_audible n u : audible n u \/ forall c, (c < Z.to_nat n)%nat -> vol u c = 0.
Proof.
  unfold audible. induction (Z.to_nat n) as [|j [(c & C & V)|IH]]; [right; intros; lia|left; exists c; split; [lia|exact V]|].
  destruct (Z.eq_dec (vol u j) 0) as [E|E]; [|left; exists j; split; [lia|exact E]].
  right. intros c C. destruct (Nat.eq_dec c j) as [-> |]; [exact E|apply IH; lia].
Qed.

Lemma voice_run fuel n u now h v e : at_time n u now h v -> h <= now + e -> 0 <= e -> e + 1048576 < 2147483648 -> e + 1000 <= Z.of_nat fuel ->
  exists v' l, BKUnitRun fuel v e = Ok (v', l) /\ at_time n u now (now + e) v' /\ length l = Z.to_nat n /\ e <= un_time v' < 4294967296 /\ Forall (timed 0 e) l /\
    (forall k, (k < Z.to_nat n)%nat -> wave_pulses u k (now + e) = wave_pulses u k h ++ map (fun tp => (now + fst tp, snd tp)) (nth k l [])).
Proof.
  intros [S T CY PE CX VO H ST] HE E0 E1 F. pose proof T as (_ & _ & _ & M & P). assert (VK : forall k, vol v k = vol u k) by (intros k; unfold vol; rewrite VO; reflexivity).
  pose proof (wf_time v (proj1 S)) as WT.
  destruct (silent_or_audible n u) as [A|A].
  - destruct (ST A) as (TM & PH & LP). clear ST. cbv zeta in *. pose proof A as (c & C & V). rewrite <- VK in V.
    destruct (run_cycles fuel v e n c S T CX C V E0 E1 F) as (v' & l & E & S' & T' & C' & P' & X' & V' & LL & TE & TM' & PH' & K). cbv zeta in *.
    pose proof (wf_time v' (proj1 S')) as WT'. exists v', l. split; [exact E|].
    set (p := un_period u) in *. rewrite PE in *. set (t0 := un_time u) in *. set (m := before t0 p h) in *. set (m' := before (un_time v) p e) in *.
    destruct (cycle_good v S T) as (PG & _). rewrite CY in *.
    assert (CL : cycle u <> []) by (intros Q; rewrite Q in PG; cbn [length] in PG; lia).
    assert (LEN : Z.of_nat (length (cycle u)) <> 0) by (destruct (cycle u); [congruence|cbn [length]; lia]).
    pose proof (before_split t0 p h (now + e) P HE) as BS. fold m in BS. rewrite <- TM, before_move in BS. fold m' in BS.
    pose proof (before_bounds t0 p h P) as [M0 _]. pose proof (before_bounds (un_time v) p e P) as [M1 M2]. fold m in M0. fold m' in M1, M2.
    assert (ED : edges (Z.to_nat (m + m')) (ph_phase (un_phase u)) t0 p (cycle u) =
                 edges (Z.to_nat m) (ph_phase (un_phase u)) t0 p (cycle u) ++ edges (Z.to_nat m') (ph_phase (un_phase v)) (now + un_time v) p (cycle u)).
    { rewrite Z2Nat.inj_add by lia. rewrite edges_app, Z2Nat.id by lia. rewrite PH, edges_shift by exact CL. rewrite TM. reflexivity. }
    assert (LV : forall k, (k < Z.to_nat n)%nat -> vol u k <> 0 -> lastp v' k = last_level (vol u k) (lastp u k) (edges (Z.to_nat (m + m')) (ph_phase (un_phase u)) t0 p (cycle u))).
    { intros k HK V0. destruct (K k HK) as (K1 & _). rewrite VK in K1. replace (vol u k =? 0) with false in K1 by lia. rewrite K1, (LP k HK V0), ED, last_level_app. apply last_level_times. }
    split; [|split; [exact LL|split; [lia|split]]].
    + split; [exact S'|exact T'|exact C'|exact P'|exact X'|congruence|lia|]. intros _. cbv zeta. fold p t0. rewrite <- BS. split; [lia|]. split; [|exact LV].
      rewrite PH', PH, Z.add_mod_idemp_l by exact LEN. f_equal. lia.
    + apply Forall_nth. intros k d HK. rewrite (nth_indep _ d []) by exact HK. destruct (K k ltac:(lia)) as (_ & ->). destruct (vol v k =? 0); [constructor|]. unfold timed.
      destruct (Z.lt_ge_cases (un_time v) e) as [Q|Q].
      * eapply Forall_impl; [|apply (edges_times _ p _ P _ _ _ _ e); rewrite Z2Nat.id by lia; specialize (M2 Q); lia]. intros [x y] (? & _). cbn [fst] in *. lia.
      * assert (m' = 0) as -> by (unfold m', before; replace (un_time v <? e) with false by lia; reflexivity). constructor.
    + intros k HK. destruct (K k HK) as (_ & ->). unfold wave_pulses. rewrite VK. destruct (vol u k =? 0) eqn:V0; [reflexivity|]. fold p t0. rewrite <- BS. fold m.
      rewrite ED, chan_deltas_app, <- (LP k HK ltac:(lia)). f_equal. symmetry. apply shift_deltas.
  - destruct (run_safe fuel v e S) as (v' & l & E & S').
    { intros X. destruct T as (R & _). rewrite X in R. cbv in R. exfalso. apply (proj2 R). reflexivity. }
    { split; [congruence|]. pose proof (wf_period v (proj1 S)). lia. }
    { exact E0. }
    exists v', l. split; [exact E|]. unfold BKUnitRun in E. rewrite CX in E. cbv zeta in E. destruct T as (R & N & CW & _ & _).
    replace (un_period v =? 0) with false in E by lia. replace ((BK_SQUARE <=? un_waveform v) && (un_waveform v <=? BK_CUSTOM)) with true in E by lia.
    apply bind_ok in E. destruct E as ([[u1 t1] l1] & E & H1). unfold BKUnitRunWaveform in E. rewrite M in E. change (negb (0 =? 0)) with false in E. cbn iota in E.
    assert (HU : v' = set_time u1 (if t1 <? e then e else t1)) by congruence. assert (l = l1) as -> by congruence. clear H1.
    change 0 with (Z.of_nat 0) in E at 1. apply wave_channels_char in E. destruct E as (x & C & L & LL & LP & NT). cbv zeta in *.
    destruct x as [[[[t0 ph] wc] rw]|].
    { destruct C as (_ & (k & HK & V) & _). exfalso. apply V. rewrite VK. apply A. lia. }
    destruct C as (_ & -> & ->). assert (V0 : v' = set_time v e).
    { rewrite HU. f_equal. destruct (0 <? e) eqn:Q; lia. }
    clear HU. subst v'. split; [|split; [exact L|split; [cbn [un_time set_time]; lia|split]]].
    + split; try assumption; [unfold tonal; cbn [un_waveform un_phase un_mute un_period set_time]; tauto|cbn [un_time set_time]; lia|]. intros (c & C & V). exfalso. apply V, A, C.
    + apply Forall_nth. intros k d HK. rewrite (nth_indep _ d []) by exact HK. rewrite NT by lia. rewrite VK, A by lia. constructor.
    + intros k HK. rewrite NT by exact HK. cbn [Nat.add]. rewrite VK. unfold wave_pulses. rewrite A by exact HK. reflexivity.
Qed.

Lemma voice_end n u now v e : at_time n u now (now + e) v -> 0 <= e -> at_time n u (now + e) (now + e) (BKUnitEnd v e).
Proof.
  intros [S T CY PE CX VO H ST] E0. pose proof (wf_time v (proj1 S)) as WT.
  assert (TU : un_time (BKUnitEnd v e) = un_time v - e) by (unfold BKUnitEnd; cbn [un_time set_time]; apply u32_id; lia).
  split; try assumption; [apply end_safe, S|lia|]. intros A. destruct (ST A) as (TM & PH & LP). cbv zeta in *. split; [lia|]. split; assumption.
Qed.

(** ** Levels *)

Lemma value_frame c k : Forall is_frame c -> is_frame (value c k).
Proof.
  intros F. unfold value. destruct (Nat.lt_ge_cases (Z.to_nat (k mod Z.of_nat (length c))) (length c)) as [L|L]; [rewrite Forall_forall in F; apply F, nth_In, L|].
  rewrite nth_overflow by exact L. unfold is_frame. lia.
Qed.

Lemma deltas_levels v V p c a : 0 <= v <= V -> 0 < p -> Forall is_frame c -> forall n last k t,
  levels (- V - a) (V - a) t (last - a) (chan_deltas v last (edges n k t p c)).
Proof.
  intros B P F. induction n as [|n IH]; intros last k t; cbn [edges chan_deltas levels]; [exact I|]. pose proof (level_small v _ ltac:(lia) (value_frame c k F)).
  split; [lia|]. split; [lia|]. replace (last - a + (level v (value c k) - last)) with (level v (value c k) - a) by lia. eapply levels_earlier; [|apply IH]. lia.
Qed.

Lemma max_ge l x : In x l -> x <= fold_right Z.max 0 l.
Proof. induction l as [|y l IH]; intros H; [destruct H|]. cbn [fold_right]. destruct H as [-> |H]; [lia|]. specialize (IH H). lia. Qed.
Lemma max_pos l : 0 <= fold_right Z.max 0 l.
Proof. induction l as [|y l IH]; cbn [fold_right]; lia. Qed.

Lemma loudest_vol u k : vol u k <= loudest u.
Proof.
  unfold vol, loudest. destruct (Nat.lt_ge_cases k (length (un_volume u))) as [L|L]; [apply max_ge, in_or_app; left; apply nth_In, L|]. rewrite nth_overflow by exact L. apply max_pos.
Qed.
Lemma loudest_last u k : - loudest u <= nth k (un_lastPulse u) 0 <= loudest u.
Proof.
  assert (Z.abs (nth k (un_lastPulse u) 0) <= loudest u); [|lia]. unfold loudest.
  destruct (Nat.lt_ge_cases k (length (un_lastPulse u))) as [L|L]; [apply max_ge, in_or_app; right; apply in_map, nth_In, L|]. rewrite nth_overflow by exact L. apply max_pos.
Qed.

Definition unit_source (u : bkunit) : source := mk_source (loudest u) (un_lastPulse u).

Lemma sources_ok us : Forall source_ok (map unit_source us).
Proof. apply Forall_forall. intros o O. apply in_map_iff in O. destruct O as (u & <- & _). intros k. apply loudest_last. Qed.

Definition startable (n : Z) (u : bkunit) : Prop := unit_safe u /\ tonal u /\ un_ctx u = Some n.

Lemma start_at n u : startable n u -> un_time u = 0 -> at_time n u 0 0 u.
Proof.
  intros (S & T & C) Z0. assert (B : before (un_time u) (un_period u) 0 = 0) by (rewrite Z0; reflexivity).
  split; try assumption; try reflexivity; [lia|]. intros A. cbv zeta. rewrite B. destruct (cycle_good u S T) as (PG & _). split; [lia|]. split; [rewrite Z.add_0_r, Z.mod_small by lia; reflexivity|].
  intros. reflexivity.
Qed.

Lemma wave_levels n u k h : startable n u -> un_time u = 0 ->
  levels (- loudest u - nth k (un_lastPulse u) 0) (loudest u - nth k (un_lastPulse u) 0) 0 0 (wave_pulses u k h).
Proof.
  intros (S & T & C) Z0. unfold wave_pulses. destruct (vol u k =? 0) eqn:V; [exact I|]. pose proof T as (_ & _ & _ & _ & P). destruct (cycle_good u S T) as (_ & F).
  assert (V0 : 0 <= vol u k). { destruct (wf_volume u (proj1 S)) as (VL & VF). unfold vol in *. destruct (Nat.lt_ge_cases k (length (un_volume u))) as [L|L]; [|rewrite nth_overflow in * by exact L; lia]. rewrite Forall_forall in VF. apply (VF _ (nth_In _ 0 L)). }
  pose proof (loudest_vol u k). rewrite Z0. unfold lastp. replace 0 with (nth k (un_lastPulse u) 0 - nth k (un_lastPulse u) 0) at 4 by lia. apply deltas_levels; [lia|exact P|exact F].
Qed.

(** Pulses are not heard before their time. *)
Lemma wave_stable K n u k x h h' : startable n u -> (x + 1) * 1048576 <= h -> h <= h' -> pulses_at K (wave_pulses u k h') x = pulses_at K (wave_pulses u k h) x.
Proof.
  intros (S & T & C) X H. unfold wave_pulses. destruct (vol u k =? 0); [reflexivity|]. pose proof T as (_ & _ & _ & _ & P). set (p := un_period u) in *. set (t0 := un_time u).
  pose proof (before_split t0 p h h' P H) as BS. set (m := before t0 p h) in *. set (m' := before (t0 + m * p) p h') in *. pose proof (before_bounds t0 p h P) as [M0 M1]. fold m in M0, M1.
  pose proof (before_bounds (t0 + m * p) p h' P) as [M2 _]. fold m' in M2. rewrite <- BS, Z2Nat.inj_add, edges_app, chan_deltas_app, pulses_at_app, Z2Nat.id by lia.
  rewrite (pulses_at_zero K (chan_deltas _ (last_level _ _ _) _)); [lia|]. intros t y I. apply pulse_at_before.
  assert (HT : h <= t0 + m * p) by (destruct (Z.lt_ge_cases t0 h); nia).
  set (r := chan_deltas _ _ _) in I. assert (FT : Forall (fun tp => t0 + m * p <= fst tp < t0 + m * p + Z.of_nat (Z.to_nat m') * p + 1 /\ (fst tp - (t0 + m * p)) mod p = 0) r) by (apply edges_times; [exact P|lia]).
  rewrite Forall_forall in FT. specialize (FT _ I). cbn [fst] in FT. assert (x + 1 <= t / 1048576) by (apply Z.div_le_lower_bound; lia). lia.
Qed.

Lemma join_length : forall a b : list (list Z), length a = length b -> length (join a b) = length a.
Proof. induction a as [|x a IH]; intros [|y b] L; cbn in *; try congruence. rewrite IH by congruence. reflexivity. Qed.
Lemma join_nth : forall (a b : list (list Z)) k, length a = length b -> nth k (join a b) [] = nth k a [] ++ nth k b [].
Proof. induction a as [|x a IH]; intros [|y b] k L; cbn in L; try congruence; [destruct k; reflexivity|]. destruct k as [|k]; cbn [join nth]; [reflexivity|]. apply IH. congruence. Qed.

Lemma numbered {A} (l : list A) d (f : A -> Z) : map (fun s => f (nth (Z.to_nat s) l d)) (zseq 0 (length l)) = map f l.
Proof.
  induction l as [|u l IH]; [reflexivity|]. cbn [length]. change (zseq 0 (S (length l))) with (0 :: zseq (0 + 1) (length l)). cbn [map]. rewrite (zseq_shift (length l) 0 1), <- IH. f_equal. apply map_ext_in.
  intros z Hz. apply zseq_In in Hz. replace (Z.to_nat (z + 1)) with (S (Z.to_nat z)) by lia. reflexivity.
Qed.

(** ** All units *)

Section Plain.
Variable K : list (list Z).
Variable gain : Z.
Hypothesis HK : kernel_ok K.
Hypothesis HG : gain_ok K gain.
Variable fuel : nat.
Hypothesis HF : 1073742824 <= Z.of_nat fuel.
Variable n : Z.
Hypothesis HN : 0 < n.
Variable us : list bkunit.
Hypothesis HU : Forall (fun u => startable n u /\ un_time u = 0) us.
Let g := map unit_source us.
Hypothesis HS : soft K gain g.
Hypothesis HT : total g <= 16383.
Let U (s : Z) : bkunit := nth (Z.to_nat s) us unit0.

Lemma num s : In s (nums g) <-> 0 <= s < Z.of_nat (length us).
Proof. rewrite nums_In. unfold g. rewrite map_length. reflexivity. Qed.
Lemma U_ok s : 0 <= s < Z.of_nat (length us) -> startable n (U s) /\ un_time (U s) = 0.
Proof. intros S. rewrite Forall_forall in HU. apply HU. apply nth_In. lia. Qed.
Lemma source_U s : 0 <= s < Z.of_nat (length us) -> nth (Z.to_nat s) g no_source = unit_source (U s).
Proof. intros S. unfold g, U. rewrite (nth_indep _ no_source (unit_source unit0)) by (rewrite map_length; lia). apply map_nth. Qed.

(** Every channel has got the pulses of the units before their times. *)
Definition filled (h : Z -> Z) (Ps : list ledger) : Prop := length Ps = Z.to_nat n /\ forall k, (k < Z.to_nat n)%nat ->
  (forall x, In x (nth k Ps []) -> In (fst x) (nums g)) /\ forall s, In s (nums g) -> from s (nth k Ps []) = wave_pulses (U s) k (h s).

Lemma filled_hists h Ps : filled h Ps -> hists g Ps.
Proof.
  intros (L & F) k. destruct (Nat.lt_ge_cases k (Z.to_nat n)) as [Q|Q].
  - destruct (F k Q) as (A & B). split; [exact A|]. intros s S. rewrite (B s S). apply num in S. destruct (U_ok s S) as (S1 & S2). unfold lo, hi, cap, base. rewrite source_U by exact S. cbn [unit_source so_cap so_base].
    apply (wave_levels n); assumption.
  - rewrite nth_overflow by lia. split; [intros x []|]. intros s S. exact I.
Qed.

Lemma filled_ext h h' Ps : filled h Ps -> (forall s, In s (nums g) -> h s = h' s) -> filled h' Ps.
Proof. intros (L & F) E. split; [exact L|]. intros k Q. destruct (F k Q) as (A & B). split; [exact A|]. intros s S. rewrite <- E by exact S. apply B, S. Qed.

Lemma skipn_step {A} (l : list A) d j x r : skipn j l = x :: r -> nth j l d = x /\ skipn (S j) l = r /\ (j < length l)%nat.
Proof.
  revert l. induction j as [|j IH]; intros [|y l] E; cbn [skipn] in E; try discriminate.
  - cbn [nth skipn length]. split; [congruence|]. split; [congruence|lia].
  - destruct (IH l E) as (E1 & E2 & E3). cbn [nth length]. split; [exact E1|]. split; [exact E2|lia].
Qed.

Lemma run_plain_ok rd e : 0 <= rd -> 0 <= e <= 1073741824 -> let now := rd * 1048576 in forall vs s Ps chs, 0 <= s -> s + Z.of_nat (length vs) = Z.of_nat (length us) ->
  Forall2 (fun o v => at_time n o now now (snd v)) (skipn (Z.to_nat s) us) vs -> filled (fun s' => if s' <? s then now + e else now) Ps -> Forall2 (chan K rd) Ps chs ->
  exists vs' chs' Ps', run_plain fuel vs chs e = Ok (vs', chs') /\ Forall2 (fun o v => at_time n o now (now + e) (snd v)) (skipn (Z.to_nat s) us) vs' /\
    filled (fun _ => now + e) Ps' /\ Forall2 (chan K rd) Ps' chs' /\ Forall2 (fun b b' => b_capacity b <= b_capacity b') chs chs' /\
    (vs <> [] -> Forall (fun b => e / 1048576 <= b_capacity b) chs').
Proof.
  intros R E now. induction vs as [|[i v] vs IH]; intros s Ps chs S0 SL V FI CH; cbn [run_plain].
  - exists [], chs, Ps. split; [reflexivity|]. split; [inversion V; constructor|]. split; [|split; [exact CH|split; [clear; induction chs; constructor; [lia|assumption]|congruence]]].
    eapply filled_ext; [exact FI|]. intros s' I'. apply num in I'. cbn [length] in SL. cbv beta. replace (s' <? s) with true by lia. reflexivity.
  - inversion V as [|o x r y V1 V2 EQ]; subst x y. symmetry in EQ. destruct (skipn_step us unit0 _ _ _ EQ) as (N1 & N2 & N3). cbn [snd] in V1.
    destruct (voice_run fuel n o now now v e V1 ltac:(lia) ltac:(lia) ltac:(lia) ltac:(lia)) as (v' & l & -> & V' & LL & TE & TM & W). cbn [bind].
    pose proof FI as (LP & FI'). assert (UO : U s = o) by exact N1. assert (SI : In s (nums g)) by (apply num; lia).
    assert (NX : filled (fun s' => if s' <? s + 1 then now + e else now) (ext s (rd * 1048576) Ps l)).
    { split; [rewrite ext_length; congruence|]. intros k HKk. destruct (FI' k HKk) as (A & B). rewrite ext_nth by congruence. split.
      - intros x X. apply in_app_or in X. destruct X as [X|X]; [apply A, X|]. unfold lab in X. apply in_map_iff in X. destruct X as (? & <- & _). exact SI.
      - intros s' I'. rewrite from_app, (B s' I'). destruct (Z.eq_dec s' s) as [-> |NE].
        + rewrite from_lab. cbv beta. replace (s <? s) with false by lia. replace (s <? s + 1) with true by lia. rewrite UO. symmetry. apply W. exact HKk.
        + rewrite from_lab_other by congruence. rewrite app_nil_r. replace (s' <? s + 1) with (s' <? s) by lia. reflexivity. }
    pose proof (filled_hists _ _ NX) as HH.
    destruct (mix_safe K gain fuel g rd s e (un_time v') HS R ltac:(lia) ltac:(lia) TE Ps chs CH l 0%nat ltac:(congruence) HH TM) as (chs1 & EM & C1).
    { intros k t x X. destruct (Nat.lt_ge_cases k (Z.to_nat n)) as [Q|Q]; [|rewrite nth_overflow in X by lia; destruct X].
      specialize (W k Q). destruct (U_ok s ltac:(lia)) as (S1 & S2). rewrite UO in S1, S2. pose proof (wave_levels n o k (now + e) S1 S2) as LV. rewrite W in LV.
      pose proof (levels_move (- loudest o - nth k (un_lastPulse o) 0) (loudest o - nth k (un_lastPulse o) 0) (- nth k (un_lastPulse o) 0) 0 _ _ _ LV) as LM.
      replace (- loudest o - nth k (un_lastPulse o) 0 - - nth k (un_lastPulse o) 0) with (- loudest o) in LM by lia.
      replace (loudest o - nth k (un_lastPulse o) 0 - - nth k (un_lastPulse o) 0) with (loudest o) in LM by lia.
      pose proof (levels_small (loudest o) _ (0 + 0) (0 - - nth k (un_lastPulse o) 0) ltac:(pose proof (loudest_last o k); lia) LM (0 + (now + t)) x) as SM.
      assert (CT : loudest o <= total g) by (pose proof (cap_total g s (proj1 HS)) as CT; unfold cap in CT; rewrite source_U in CT by lia; rewrite UO in CT; exact CT).
      unfold is_s16. assert (IN : In (0 + (now + t), x) (map (fun tp => (0 + fst tp, snd tp)) (wave_pulses o k now ++ map (fun tp => (now + fst tp, snd tp)) (nth k l [])))).
      { apply in_map_iff. exists (now + t, x). split; [reflexivity|]. apply in_or_app. right. apply in_map_iff. exists (t, x). split; [reflexivity|exact X]. }
      specialize (SM IN). lia. }
    rewrite EM. cbn [bind].
    assert (FC : Forall ContextRun.fine chs) by (clear - CH; induction CH as [|? ? ? ? C]; constructor; [apply (ch_fine _ _ _ _ C)|assumption]).
    destruct (mix_fine e (un_time v') chs l chs1 FC) as (_ & CE & CC); [eapply Forall_impl; [|exact TM]; intros ? Q; eapply Forall_impl; [|exact Q]; cbn; intros; lia|lia|lia|lia|exact EM|].
    destruct (IH (s + 1) (ext s (rd * 1048576) Ps l) chs1) as (vs' & chs' & Ps' & -> & I1 & I2 & I3 & I4 & _); [lia|cbn [length] in SL; lia|replace (Z.to_nat (s + 1)) with (S (Z.to_nat s)) by lia; rewrite N2; exact V2|exact NX|exact C1|].
    cbn [bind]. eexists _, _, Ps'. split; [reflexivity|]. split.
    + constructor; [exact V'|]. replace (Z.to_nat (s + 1)) with (S (Z.to_nat s)) in I1 by lia. rewrite N2 in I1. exact I1.
    + split; [exact I2|]. split; [exact I3|]. split.
      * clear - CC I4. revert chs' I4. induction CC as [|a b A B C D ID]; intros chs' I4; inversion I4; subst; constructor; [lia|apply ID; assumption].
      * intros _. clear - CE I4. induction I4; constructor; inversion CE; subst; [lia|apply IHI4; assumption].
Qed.

(** The sum of all units at a frame: the pulses before its end. *)
Definition tone (k : nat) (x : Z) : Z := zsum (map (fun u => pulses_at K (wave_pulses u k ((x + 1) * 1048576)) x) us).
(** The frames [a] ... [a + m - 1]. *)
Definition tune (k : nat) (a m : Z) : list Z :=
  map saturate (integrate (integrate_end 0 (map (tone k) (zseq 0 (Z.to_nat a)))) (map (tone k) (zseq a (Z.to_nat m)))).

Lemma tune_split k a m m' : 0 <= a -> 0 <= m -> 0 <= m' -> tune k a (m + m') = tune k a m ++ tune k (a + m) m'.
Proof.
  intros A M M'. unfold tune. rewrite (Z2Nat.inj_add m m') by lia. rewrite zseq_app, map_app, integrate_app, map_app. f_equal. f_equal. rewrite Z2Nat.id by lia. f_equal.
  rewrite (Z2Nat.inj_add a m) by lia. rewrite zseq_app, map_app, integrate_end_app, Z2Nat.id by lia. rewrite Z.add_0_l. reflexivity.
Qed.

Lemma filled_tone h Ps k x : filled (fun _ => h) Ps -> (k < Z.to_nat n)%nat -> (x + 1) * 1048576 <= h -> pulses_at K (map snd (nth k Ps [])) x = tone k x.
Proof.
  intros (L & F) Q X. destruct (F k Q) as (A & B). rewrite (pulses_by_source K _ x (nums g) (zseq_NoDup _ _) A). unfold tone.
  rewrite (map_ext_in _ (fun s => (fun u => pulses_at K (wave_pulses u k ((x + 1) * 1048576)) x) (U s))).
  - f_equal. unfold nums, g, U. rewrite map_length. apply (numbered us unit0 (fun u => pulses_at K (wave_pulses u k ((x + 1) * 1048576)) x)).
  - intros s S. rewrite (B s S). apply num in S. destruct (U_ok s S) as (S1 & _). apply (wave_stable K n); [exact S1|lia|exact X].
Qed.

(** A context which plays the units, [rd] frames having been read. *)
Record playing (rd : Z) (Ps : list ledger) (c : pcontext) : Prop := {
  pl_units : Forall2 (fun o v => at_time n o (rd * 1048576) (rd * 1048576) (snd v)) us (pc_units c);
  pl_filled : filled (fun _ => rd * 1048576) Ps;
  pl_chans : Forall2 (chan K rd) Ps (pc_channels c);
  pl_rd : 0 <= rd }.

Lemma rels_tune h rd m Ps chs ss chs' : filled (fun _ => h) Ps -> (rd + m) * 1048576 <= h -> 0 <= rd -> 0 <= m ->
  Forall2 (chan K rd) Ps chs -> Forall (fun b => m <= b_capacity b) chs -> rels m ss chs chs' ->
  length ss = Z.to_nat n /\ forall k, (k < Z.to_nat n)%nat -> nth k ss [] = tune k rd m.
Proof.
  intros F H R M C CP RL. pose proof F as (L & _).
  assert (G : forall k, (k < Z.to_nat n)%nat -> forall x, x < rd + m -> pulses_at K (map snd (nth k Ps [])) x = tone k x) by (intros k Q x X; apply (filled_tone h); [exact F|exact Q|lia]).
  clear F. assert (LR : length ss = length Ps).
  { clear - C RL. revert Ps C. induction RL; intros Ps C; inversion C; subst; cbn [length]; [reflexivity|]. f_equal. apply IHRL. assumption. }
  split; [congruence|]. rewrite <- L in *. intros k Q. specialize (G k Q). clear H L. unfold tune. revert G. generalize (tone k) as f. intros f G. revert Ps C k Q G LR. induction RL as [|s bL bE ss chL chE RL1 RL IH]; intros Ps C k Q G LR.
  { inversion C; subst. cbn [length] in Q. lia. }
  inversion C as [|P b Ps' chs0 C1 C2]; subst. inversion CP as [|? ? CP1 CP2]; subst. cbn [length] in *. destruct k as [|k]; cbn [nth] in *; [|apply (IH CP2 Ps' C2); [lia|exact G|congruence]].
  pose proof (ch_fine _ _ _ _ C1) as (B1 & _). pose proof B1 as (L1 & _ & CA & _ & A1 & _). pose proof capacity_val as Hcap.
  destruct RL1 as (_ & _ & _ & _ & _ & _ & _ & E). destruct (read_loop_spec (firstn (Z.to_nat m) (b_frames bL)) (b_accum bL) A1) as [(a & E' & _ & _ & FI)|(E' & _)]; [|congruence].
  assert (s = map out_sample (integrate (b_accum bL) (firstn (Z.to_nat m) (b_frames bL)))) as -> by congruence.
  assert (FD : firstn (Z.to_nat m) (b_frames bL) = map (f) (zseq rd (Z.to_nat m))).
  { apply nth_ext with (d := 0) (d' := f 0); [rewrite firstn_length, map_length, zseq_length; lia|].
    intros j Hj. rewrite firstn_length in Hj. rewrite nth_firstn_lt by lia. rewrite map_nth, zseq_nth by lia.
    pose proof (ch_cells _ _ _ _ C1 (Z.of_nat j) ltac:(lia)) as W. unfold cell in W. rewrite Nat2Z.id in W. rewrite W, G by lia. f_equal. lia. }
  rewrite FD in *. rewrite (ch_accum _ _ _ _ C1) in *.
  assert (AE : map (pulses_at K (map snd P)) (zseq 0 (Z.to_nat rd)) = map (f) (zseq 0 (Z.to_nat rd))) by (apply map_ext_in; intros x X; apply zseq_In in X; apply G; lia).
  rewrite AE in *. apply map_ext_in. intros x X. apply out_sample_saturate. rewrite Forall_forall in FI. apply FI, X.
Qed.

Lemma chunk_ok rd Ps c m : us <> [] -> playing rd Ps c -> 0 <= m <= 1024 -> exists c' ss Ps',
  (let* c := plain_end fuel c (m * 1048576) in plain_read c m) = Ok (c', m, ss) /\ playing (rd + m) Ps' c' /\ length ss = Z.to_nat n /\ forall k, (k < Z.to_nat n)%nat -> nth k ss [] = tune k rd m.
Proof.
  intros NE [PU PF PC PR] M. set (now := rd * 1048576) in *.
  destruct (run_plain_ok rd (m * 1048576) PR ltac:(lia) (pc_units c) 0 Ps (pc_channels c) ltac:(lia)) as (vs & chs & Ps' & E & V & F & C & _ & CP).
  { assert (LU : length us = length (pc_units c)) by (clear - PU; induction PU; cbn [length]; congruence). lia. }
  { exact PU. }
  { eapply filled_ext; [exact PF|]. intros s S. apply num in S. cbv beta. replace (s <? 0) with false by lia. reflexivity. }
  { exact PC. }
  assert (VN : pc_units c <> []) by (intros Q; rewrite Q in PU; inversion PU; congruence). specialize (CP VN). rewrite Z.div_mul in CP by lia.
  destruct (read_safe K gain HK HG fuel g rd m HS PR ltac:(lia) Ps' chs C 0%nat (filled_hists _ _ F) CP) as (chs' & ss & RL & C').
  assert (FC : Forall ContextRun.fine chs) by (clear - C; induction C as [|? ? ? ? C0]; constructor; [apply (ch_fine _ _ _ _ C0)|assumption]).
  pose proof F as (LP & _). assert (CN : chs <> []).
  { intros Q. rewrite Q in C. inversion C; subst. cbn [length] in LP. lia. }
  unfold plain_end, plain_read. rewrite E. cbn [bind pc_channels pc_units pc_delta].
  rewrite (proj2 (read_channels_rels m (proj1 M) chs chs' m ss FC CP CN) (conj eq_refl RL)). cbn [bind].
  eexists _, ss, Ps'. split; [reflexivity|]. replace (rd * 1048576 + m * 1048576) with ((rd + m) * 1048576) in F by lia. split; [|eapply rels_tune; try eassumption; lia].
  split; cbn [pc_units pc_channels]; [|exact F|exact C'|lia]. cbn [Z.to_nat skipn] in V. clear - V M. induction V as [|o v us' vs V1 V IH]; cbn [map]; constructor; [|exact IH].
  cbn [snd]. replace ((rd + m) * 1048576) with (rd * 1048576 + m * 1048576) by lia. apply voice_end; [exact V1|lia].
Qed.

Lemma loop_ok : us <> [] -> forall m rd Ps c rem w, playing rd Ps c -> 0 <= rem < 4294967296 -> rem <= 1024 * Z.of_nat m -> m <> O -> exists c' w' ss Ps',
  plain_loop m fuel c rem w = Ok (c', w', ss) /\ playing (rd + rem) Ps' c' /\ length ss = Z.to_nat n /\ forall k, (k < Z.to_nat n)%nat -> nth k ss [] = tune k rd rem.
Proof.
  intros NE. induction m as [|m IH]; intros rd Ps c rem w P R L M0; [congruence|]. cbn [plain_loop]. cbv zeta.
  set (q := if rem >? BK_MAX_GENERATE_SAMPLES then BK_MAX_GENERATE_SAMPLES else rem).
  assert (QB : q = Z.min rem 1024) by (unfold q, BK_MAX_GENERATE_SAMPLES; destruct (Z.gtb_spec rem 1024); lia).
  rewrite Z.shiftl_mul_pow2 by (unfold BK_FINT20_SHIFT; lia). change (2 ^ BK_FINT20_SHIFT) with 1048576. rewrite u32_id by lia.
  destruct (chunk_ok rd Ps c q NE P ltac:(lia)) as (c1 & ss & Ps1 & E & P1 & L1 & T1). apply bind_ok in E. destruct E as (c0 & E0 & E). rewrite E0. cbn [bind]. rewrite E. cbn [bind].
  replace (if q =? 0 then rem else q) with q by (destruct (Z.eqb_spec q 0); lia). rewrite u32_id by lia. pose proof (pl_rd _ _ _ P) as PR.
  destruct (Z.eqb_spec (rem - q) 0) as [Q|Q]; cbn [negb].
  - replace rem with q by lia. eexists _, _, ss, Ps1. split; [reflexivity|]. split; [exact P1|]. split; assumption.
  - destruct (IH (rd + q) Ps1 c1 (rem - q) (u32 (w + q)) P1 ltac:(lia) ltac:(lia) ltac:(lia)) as (c' & w' & ss' & Ps' & -> & P2 & L2 & T2). cbn [bind].
    eexists _, _, _, Ps'. split; [reflexivity|]. replace (rd + rem) with (rd + q + (rem - q)) by lia. split; [exact P2|].
    assert (LJ : length ss' = length ss) by congruence. split; [rewrite join_length by congruence; congruence|]. intros k HKk. rewrite join_nth by congruence. rewrite T1, T2 by exact HKk.
    replace rem with (q + (rem - q)) at 2 by lia. symmetry. apply tune_split; lia.
Qed.
End Plain.
