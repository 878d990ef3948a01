(** A channel which has got all pulses of some sources so far: more can be mixed, and frames can be read. *)
From Verif Require Import CInt CIntFacts Kernels BufferModel BufferSpec BufferProofs BufferProofs2 UnitModel UnitSpec UnitProofs UnitShift
  MixSpec MixProofs ContextModel ContextSame ContextRun ContextChunk.
Ltac Zify.zify_post_hook ::= idtac.

(** ** Sources *)

(** The largest level of a source, and the levels of the channels it begins with. *)
Record source := mk_source { so_cap : Z; so_base : list Z }.
Definition no_source : source := mk_source 0 [].
Definition cap (g : list source) (s : Z) : Z := so_cap (nth (Z.to_nat s) g no_source).
Definition base (g : list source) (s : Z) (k : nat) : Z := nth k (so_base (nth (Z.to_nat s) g no_source)) 0.
Definition nums (g : list source) : list Z := zseq 0 (length g).
Definition lo (g : list source) (k : nat) (s : Z) : Z := - cap g s - base g s k.
Definition hi (g : list source) (k : nat) (s : Z) : Z := cap g s - base g s k.
Definition source_ok (o : source) : Prop := forall k, - so_cap o <= nth k (so_base o) 0 <= so_cap o.
Definition total (g : list source) : Z := zsum (map so_cap g).

(** All pulses of a channel, with their sources. *)
Definition ledger : Type := list (Z * (Z * Z)).
Definition lab (s now : Z) (l : list (Z * Z)) : ledger := map (fun tp => (s, (now + fst tp, snd tp))) l.
Definition hist (g : list source) (k : nat) (P : ledger) : Prop :=
  (forall x, In x P -> In (fst x) (nums g)) /\ (forall s, In s (nums g) -> levels (lo g k s) (hi g k s) 0 0 (from s P)).

Lemma nums_In g s : In s (nums g) <-> 0 <= s < Z.of_nat (length g).
Proof.
  unfold nums. split; [intros H; apply zseq_In in H; lia|]. intros H. replace s with (nth (Z.to_nat s) (zseq 0 (length g)) 0) by (rewrite zseq_nth by lia; lia).
  apply nth_In. rewrite zseq_length. lia.
Qed.

Lemma zseq_NoDup n : forall a, NoDup (zseq a n).
Proof. induction n as [|n IH]; intros a; cbn [zseq]; constructor; [|apply IH]. intros H. apply zseq_In in H. lia. Qed.

Lemma source_In g s : Forall source_ok g -> In s (nums g) -> source_ok (nth (Z.to_nat s) g no_source).
Proof. intros F H. apply nums_In in H. rewrite Forall_forall in F. apply F. apply nth_In. lia. Qed.

Lemma lo_hi g k s : Forall source_ok g -> In s (nums g) -> lo g k s <= 0 <= hi g k s.
Proof. intros F H. specialize (source_In g s F H k). unfold lo, hi, cap, base. lia. Qed.

Lemma zseq_shift n : forall a b (f : Z -> Z), map f (zseq (a + b) n) = map (fun z => f (z + b)) (zseq a n).
Proof. induction n as [|n IH]; intros a b f; cbn [zseq map]; [reflexivity|]. f_equal. replace (a + b + 1) with (a + 1 + b) by lia. apply IH. Qed.

Lemma map_nums g (f : source -> Z) : map (fun s => f (nth (Z.to_nat s) g no_source)) (nums g) = map f g.
Proof.
  unfold nums. induction g as [|o g IH]; [reflexivity|]. cbn [length zseq map]. f_equal. rewrite zseq_shift. rewrite <- IH. apply map_ext_in.
  intros z H. apply zseq_In in H. replace (Z.to_nat (z + 1)) with (S (Z.to_nat z)) by lia. reflexivity.
Qed.

Lemma swing_total g k : swing (nums g) (lo g k) (hi g k) = 2 * total g.
Proof.
  unfold swing, total. rewrite (map_ext _ (fun s => (fun o => so_cap o * 2) (nth (Z.to_nat s) g no_source))).
  - rewrite (map_nums g (fun o => so_cap o * 2)), zsum_map_scale. lia.
  - intros s. unfold hi, lo, cap. lia.
Qed.

Lemma lab_snd s now l : map snd (lab s now l) = map (fun tp => (now + fst tp, snd tp)) l.
Proof. unfold lab. rewrite map_map. reflexivity. Qed.
Lemma lab_app s now l l' : lab s now (l ++ l') = lab s now l ++ lab s now l'.
Proof. unfold lab. apply map_app. Qed.
Lemma from_lab s now l : from s (lab s now l) = map (fun tp => (now + fst tp, snd tp)) l.
Proof.
  unfold lab. induction l as [|[t p] l IH]; [reflexivity|]. cbn [map]. rewrite from_cons, Z.eqb_refl, IH. reflexivity.
Qed.
Lemma from_lab_other s s' now l : s' <> s -> from s (lab s' now l) = [].
Proof.
  intros N. unfold lab. induction l as [|[t p] l IH]; [reflexivity|]. cbn [map]. rewrite from_cons. destruct (Z.eqb_spec s' s); [contradiction|exact IH].
Qed.

(** ** Levels of a source *)

Lemma levels_app lo hi l2 t2 l1 : forall t v, levels lo hi t v l1 -> (forall u p, In (u, p) l1 -> u <= t2) -> t <= t2 ->
  levels lo hi t2 (v + sum_values l1) l2 -> levels lo hi t v (l1 ++ l2).
Proof.
  induction l1 as [|[u p] l1 IH]; intros t v H B T H2; cbn [app].
  - cbn [sum_values fold_right] in H2. rewrite Z.add_0_r in H2. eapply levels_earlier; eassumption.
  - cbn [levels] in *. destruct H as (A & L & H). split; [exact A|]. split; [exact L|]. apply IH; [exact H|intros; eapply B; right; eassumption|eapply B; left; reflexivity|].
    unfold sum_values in *. cbn [fold_right snd] in H2. replace (v + p + _) with (v + (p + fold_right (fun tp s => snd tp + s) 0 l1)) by lia. exact H2.
Qed.

Lemma levels_move lo hi a now l : forall t v, levels lo hi t v l -> levels (lo - a) (hi - a) (now + t) (v - a) (map (fun tp => (now + fst tp, snd tp)) l).
Proof.
  induction l as [|[u p] l IH]; intros t v H; cbn [map levels fst snd] in *; [exact I|]. destruct H as (A & B & C). split; [lia|]. split; [lia|].
  replace (v - a + p) with (v + p - a) by lia. apply IH. exact C.
Qed.

Lemma levels_small V l : forall t v, - V <= v <= V -> levels (- V) V t v l -> forall u p, In (u, p) l -> - (2 * V) <= p <= 2 * V.
Proof.
  induction l as [|[w q] l IH]; intros t v R H u p I; [destruct I|]. cbn [levels] in H. destruct H as (A & B & C). destruct I as [E|I].
  - assert (q = p) by congruence. lia.
  - exact (IH _ _ B C _ _ I).
Qed.

Lemma sum_values_app l l' : sum_values (l ++ l') = sum_values l + sum_values l'.
Proof. unfold sum_values. induction l as [|[t p] l IH]; cbn [app fold_right snd]; lia. Qed.
Lemma sum_values_move now l : sum_values (map (fun tp => (now + fst tp, snd tp)) l) = sum_values l.
Proof. unfold sum_values. induction l as [|[t p] l IH]; cbn [map fold_right snd]; lia. Qed.

(** ** A channel *)

Section Channel.
Variable K : list (list Z).
Variable gain : Z.
Hypothesis HK : kernel_ok K.
Hypothesis HG : gain_ok K gain.

Record chan (rd : Z) (P : ledger) (b : buffer) : Prop := {
  ch_fine : ContextRun.fine b;
  ch_pulse : b_pulse b = K;
  ch_cells : forall j, 0 <= j -> cell (b_frames b) j = pulses_at K (map snd P) (j + rd);
  ch_accum : b_accum b = integrate_end 0 (map (pulses_at K (map snd P)) (zseq 0 (Z.to_nat rd))) }.

(** The sources are quiet enough. *)
Definition soft (g : list source) : Prop :=
  Forall source_ok g /\ 2 * total g * cell_gain K <= 2147483647 /\ 2 * total g * sum_gain K gain <= 2147483647.

Lemma later_pulses rd s l : 0 <= rd -> (forall t p, In (t, p) l -> 0 <= t) -> forall y, y < rd -> pulses_at K (map snd (lab s (rd * 1048576) l)) y = 0.
Proof.
  intros R H y Y. rewrite lab_snd. apply pulses_at_zero. intros t p X. apply in_map_iff in X as ([t' p'] & X & Y'). assert (t = rd * 1048576 + t') as -> by (cbn in X; congruence).
  apply pulse_at_before. specialize (H _ _ Y'). assert (rd <= (rd * 1048576 + t') / 1048576) by (apply Z.div_le_lower_bound; lia). lia.
Qed.

Lemma chan_mix g k rd P b s l e : soft g -> chan rd P b -> 0 <= rd -> hist g k (P ++ lab s (rd * 1048576) l) ->
  timed 0 e l -> e + 1048576 < 4294967296 -> 0 <= e -> (forall t p, In (t, p) l -> is_s16 p) ->
  exists b1, add_all b l = Ok b1 /\ forall time, e <= time < 4294967296 -> chan rd (P ++ lab s (rd * 1048576) l) (BKBufferEnd b1 time).
Proof.
  intros (S1 & S2 & S3) C R [H1 H2] T E E0 HP. pose proof (ch_fine _ _ _ C) as (B1 & B2 & B3).
  assert (LP : forall l1, (forall t p, In (t, p) l1 -> 0 <= t < 4294967296 /\ is_s16 p) -> forall j,
    pulses_at (b_pulse b) (local_pulses b l1) j = pulses_at K (map snd (lab s (rd * 1048576) l1)) (j + rd)).
  { intros l1 H j. rewrite lab_snd, <- (ch_pulse _ _ _ C). apply (local_abs b (rd * 1048576) rd 4294967295); [lia|lia|lia|]. intros t p X. specialize (H t p X). split; [lia|tauto]. }
  assert (HL : forall t p, In (t, p) l -> 0 <= t < 4294967296 /\ is_s16 p).
  { intros t p X. unfold timed in T. rewrite Forall_forall in T. specialize (T _ X). cbn in T. split; [lia|eapply HP, X]. }
  destruct (mix_prefixes l b B1) as (b1 & E1).
  { intros l1 l2 j EL J. rewrite LP by (intros t p X; apply HL; rewrite EL; apply in_or_app; left; exact X).
    rewrite (ch_cells _ _ _ C) by lia. rewrite <- pulses_at_app, <- map_app.
    pose proof (frames_bound K (nums g) (lo g k) (hi g k) (P ++ lab s (rd * 1048576) l) (zseq_NoDup _ _) (fun s I => lo_hi g k s S1 I) H1 H2 (P ++ lab s (rd * 1048576) l1) (lab s (rd * 1048576) l2) (j + rd)) as B.
    rewrite swing_total in B. unfold is_s32. rewrite EL, lab_app, app_assoc in B. specialize (B eq_refl). lia. }
  exists b1. split; [exact E1|]. intros time TT. destruct (add_all_spec _ _ _ B1 E1) as (A1 & A2 & A3).
  destruct (add_all_fine b l b1 e time (ch_fine _ _ _ C)) as (F1 & _); [eapply Forall_impl; [|exact T]; cbn; intros; lia|lia..|exact E1|].
  split.
  - exact F1.
  - change (b_pulse (BKBufferEnd b1 time)) with (b_pulse b1). rewrite A2. apply (ch_pulse _ _ _ C).
  - intros j J. change (b_frames (BKBufferEnd b1 time)) with (b_frames b1). rewrite A3 by exact J. rewrite LP by exact HL. rewrite (ch_cells _ _ _ C) by exact J.
    rewrite map_app, pulses_at_app. reflexivity.
  - change (b_accum (BKBufferEnd b1 time)) with (b_accum b1). rewrite A2. cbn [with_frames b_accum]. rewrite (ch_accum _ _ _ C). f_equal. apply map_ext_in.
    intros y Y. apply zseq_In in Y. rewrite map_app, pulses_at_app, later_pulses; [lia|lia|intros t p X; apply (HL _ _ X)|lia].
Qed.

Lemma chan_read g k rd P b m : soft g -> chan rd P b -> 0 <= rd -> hist g k P -> 0 <= m <= b_capacity b ->
  exists b' s, rel m s b b' /\ chan (rd + m) P b'.
Proof.
  intros (S1 & S2 & S3) C R [H1 H2] M. pose proof (ch_fine _ _ _ C) as (B1 & B2 & B3). pose proof B1 as (L1 & _ & C1 & _ & A1 & _). pose proof capacity_val as Hcap.
  assert (FD : firstn (Z.to_nat m) (b_frames b) = map (pulses_at K (map snd P)) (zseq rd (Z.to_nat m))).
  { apply nth_ext with (d := 0) (d' := pulses_at K (map snd P) 0); [rewrite firstn_length, map_length, zseq_length; lia|].
    intros i Hi. rewrite firstn_length in Hi. rewrite nth_firstn_lt by lia. rewrite map_nth, zseq_nth by lia.
    pose proof (ch_cells _ _ _ C (Z.of_nat i) ltac:(lia)) as Q. unfold cell in Q. rewrite Nat2Z.id in Q. rewrite Q. f_equal. lia. }
  pose proof (integrate_all K gain (nums g) (lo g k) (hi g k) P HK HG (zseq_NoDup _ _) (fun s I => lo_hi g k s S1 I) H1 H2 P [] (Z.to_nat rd + Z.to_nat m) (eq_sym (app_nil_r _))) as F.
  rewrite swing_total, zseq_app, map_app, integrate_app in F. apply Forall_app in F as [_ F]. rewrite Z.add_0_l, Z2Nat.id in F by lia. rewrite <- (ch_accum _ _ _ C), <- FD in F.
  destruct (read_loop_spec (firstn (Z.to_nat m) (b_frames b)) (b_accum b) A1) as [(a & E & EA & _)|(_ & N)].
  2: { exfalso. apply N. eapply Forall_impl; [|exact F]. intros a Q. cbv beta in Q. unfold is_s32. lia. }
  pose proof (read_rel b m _ _ (ch_fine _ _ _ C) M E) as RL. eexists _, _. split; [exact RL|].
  assert (FN : ContextRun.fine (mk_buffer 0 (b_capacity b - m) a (read_frames (b_frames b) m (b_capacity b)) (b_pulse b))).
  { destruct RL as (_ & R2 & _ & R4 & R5 & _ & R7 & _). split; [exact R2|]. split; [exact R4|]. intros i Hi. cbn [b_capacity] in Hi. rewrite R7 by lia. apply B3. lia. }
  destruct RL as (_ & R2 & _ & R4 & R5 & R6 & R7 & _). split.
  - exact FN.
  - cbn [b_pulse]. apply (ch_pulse _ _ _ C).
  - intros j J. rewrite R7 by lia. rewrite (ch_cells _ _ _ C) by lia. f_equal. lia.
  - cbn [b_accum]. rewrite EA, FD, (ch_accum _ _ _ C), <- integrate_end_app, <- map_app. f_equal. f_equal. rewrite (Z2Nat.inj_add rd m) by lia. rewrite zseq_app. f_equal. f_equal. lia.
Qed.

Lemma chan_start b : ContextRun.fine b -> b_pulse b = K -> b_accum b = 0 -> (forall j, 0 <= j -> cell (b_frames b) j = 0) -> chan 0 [] b.
Proof. intros F P A C. split; [exact F|exact P| |rewrite A; reflexivity]. intros j J. rewrite C by exact J. reflexivity. Qed.
End Channel.
