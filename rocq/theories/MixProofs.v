(** Proofs about several sources in a channel: how far the frames and the accumulator can get. *)
From Verif Require Import CInt CIntFacts Kernels BufferModel BufferSpec BufferProofs BufferProofs2 MixSpec.
Ltac Zify.zify_post_hook ::= idtac.

(** ** Variation of a sequence of numbers *)

(** Entry [k] of the sequence [prev], [L], 0, 0, ... *)
Definition entry (prev : Z) (L : list Z) (k : nat) : Z := match k with O => prev | S k => nth k L 0 end.
(** Falls and rises up to entry [k], and all of them. *)
Fixpoint fallsto (prev : Z) (L : list Z) (k : nat) : Z :=
  match k with
  | O => 0
  | S k => match L with [] => Z.max 0 prev | x :: L => Z.max 0 (prev - x) + fallsto x L k end
  end.
Fixpoint risesto (prev : Z) (L : list Z) (k : nat) : Z :=
  match k with
  | O => 0
  | S k => match L with [] => Z.max 0 (- prev) | x :: L => Z.max 0 (x - prev) + risesto x L k end
  end.
Fixpoint falls (prev : Z) (L : list Z) : Z := match L with [] => Z.max 0 prev | x :: L => Z.max 0 (prev - x) + falls x L end.
Fixpoint rises (prev : Z) (L : list Z) : Z := match L with [] => Z.max 0 (- prev) | x :: L => Z.max 0 (x - prev) + rises x L end.

Lemma fallsto_nonneg L : forall prev k, 0 <= fallsto prev L k.
Proof. induction L as [|x L IH]; intros prev [|k]; cbn [fallsto]; try lia. specialize (IH x k). lia. Qed.
Lemma risesto_nonneg L : forall prev k, 0 <= risesto prev L k.
Proof. induction L as [|x L IH]; intros prev [|k]; cbn [risesto]; try lia. specialize (IH x k). lia. Qed.
Lemma fallsto_le L : forall prev k, fallsto prev L k <= falls prev L.
Proof. induction L as [|x L IH]; intros prev [|k]; cbn [fallsto falls]; try lia; [pose proof (fallsto_nonneg L x (length L)); specialize (IH x (length L)); lia|specialize (IH x k); lia]. Qed.
Lemma risesto_le L : forall prev k, risesto prev L k <= rises prev L.
Proof. induction L as [|x L IH]; intros prev [|k]; cbn [risesto rises]; try lia; [pose proof (risesto_nonneg L x (length L)); specialize (IH x (length L)); lia|specialize (IH x k); lia]. Qed.
Lemma fallsto_mono L : forall prev k k', (k <= k')%nat -> fallsto prev L k <= fallsto prev L k'.
Proof.
  induction L as [|x L IH]; intros prev k k' H; destruct k as [|k], k' as [|k']; cbn [fallsto]; try lia.
  - pose proof (fallsto_nonneg L x k'). lia.
  - specialize (IH x k k' ltac:(lia)). lia.
Qed.
Lemma risesto_mono L : forall prev k k', (k <= k')%nat -> risesto prev L k <= risesto prev L k'.
Proof.
  induction L as [|x L IH]; intros prev k k' H; destruct k as [|k], k' as [|k']; cbn [risesto]; try lia.
  - pose proof (risesto_nonneg L x k'). lia.
  - specialize (IH x k k' ltac:(lia)). lia.
Qed.
Lemma entry_moves L : forall prev k, entry prev L k = prev - fallsto prev L k + risesto prev L k.
Proof.
  induction L as [|x L IH]; intros prev [|k]; cbn [entry fallsto risesto nth]; try lia.
  - destruct k; lia.
  - specialize (IH x k). destruct k; cbn [entry nth] in *; lia.
Qed.
Lemma all_moves L : forall prev, falls prev L - rises prev L = prev.
Proof. induction L as [|x L IH]; intros prev; cbn [falls rises]; [lia|]. specialize (IH x). lia. Qed.

(** ** A weighted sum over positions in order *)

Section weighted.
Context (prev : Z) (L : list Z) (pos : Z -> nat) (lo hi : Z).
Hypothesis pos_mono : forall a b, a <= b -> (pos a <= pos b)%nat.
Hypothesis zero_in : lo <= 0 <= hi.

Definition weighted (l : list (Z * Z)) : Z := zsum (map (fun tp => entry prev L (pos (fst tp)) * snd tp) l).

Lemma weighted_step l : forall t v, lo <= v <= hi -> levels lo hi t v l ->
  weighted l <= hi * (falls prev L - fallsto prev L (pos t)) - lo * (rises prev L - risesto prev L (pos t)) - v * entry prev L (pos t) /\
  lo * (falls prev L - fallsto prev L (pos t)) - hi * (rises prev L - risesto prev L (pos t)) - v * entry prev L (pos t) <= weighted l.
Proof.
  induction l as [|[t' p] l IH]; intros t v V H.
  - unfold weighted. cbn. pose proof (fallsto_le L prev (pos t)). pose proof (risesto_le L prev (pos t)). rewrite entry_moves. pose proof (all_moves L prev).
    set (F := falls prev L) in *. set (R := rises prev L) in *. set (f := fallsto prev L (pos t)) in *. set (r := risesto prev L (pos t)) in *.
    replace (prev - f + r) with ((F - f) - (R - r)) by lia. nia.
  - cbn [levels] in H. destruct H as (H1 & H2 & H3). destruct (IH t' (v + p) H2 H3) as [U D].
    assert (W : weighted ((t', p) :: l) = entry prev L (pos t') * p + weighted l) by reflexivity. rewrite W. clear W.
    pose proof (fallsto_mono L prev (pos t) (pos t') (pos_mono _ _ H1)) as M1. pose proof (risesto_mono L prev (pos t) (pos t') (pos_mono _ _ H1)) as M2.
    pose proof (entry_moves L prev (pos t)) as E1. pose proof (entry_moves L prev (pos t')) as E2.
    set (F := falls prev L) in *. set (R := rises prev L) in *. set (f := fallsto prev L (pos t)) in *. set (r := risesto prev L (pos t)) in *.
    set (f' := fallsto prev L (pos t')) in *. set (r' := risesto prev L (pos t')) in *.
    assert (X : v * entry prev L (pos t) - v * entry prev L (pos t') = v * (f' - f) - v * (r' - r)) by nia. nia.
Qed.

(** From silence on. *)
Lemma weighted_bound l t : pos t = O -> levels lo hi t 0 l ->
  lo * falls prev L - hi * rises prev L <= weighted l <= hi * falls prev L - lo * rises prev L.
Proof.
  intros P H. destruct (weighted_step l t 0 ltac:(lia) H) as [U D]. rewrite P in *. cbn [fallsto risesto] in *. destruct L; cbn [fallsto risesto] in *; lia.
Qed.
End weighted.

(** ** The kernel as a sequence *)

(** What a pulse of height 1 adds to a frame, and to the sum of the frames up to it, from a pulse in the
    frame 31 frames before to a pulse at the end of the frame, in steps of 1/32 frame. *)
Definition row_of (K : list (list Z)) (z : Z) : list Z := nth (Z.to_nat (z mod 32)) K [].
Definition fine (K : list (list Z)) : list Z := map (fun z => cell (row_of K z) (31 - z / 32)) (zseq 0 (Z.to_nat 1024)).
Definition stepval (K : list (list Z)) (z : Z) : Z := zsum (firstn (Z.to_nat (32 - z / 32)) (row_of K z)).
Definition stepfine (K : list (list Z)) : list Z := map (stepval K) (zseq 0 (Z.to_nat 1024)).
Definition pos (x T : Z) : nat := Z.to_nat (T / 32768 - 32 * x + 993).

Lemma pos_mono x a b : a <= b -> (pos x a <= pos x b)%nat.
Proof. intros H. unfold pos. assert (a / 32768 <= b / 32768) by (apply Z.div_le_mono; lia). lia. Qed.

Lemma entry_map (f : Z -> Z) prev z : entry prev (map f (zseq 0 (Z.to_nat 1024))) (Z.to_nat (z + 1)) = if z <? 0 then prev else if z <? 1024 then f z else 0.
Proof.
  destruct (z <? 0) eqn:A; [replace (Z.to_nat (z + 1)) with O by lia; reflexivity|].
  replace (Z.to_nat (z + 1)) with (S (Z.to_nat z)) by lia. cbn [entry]. destruct (z <? 1024) eqn:B.
  - rewrite (nth_indep _ 0 (f 0)) by (rewrite map_length, zseq_length; lia). rewrite map_nth, zseq_nth by lia. f_equal. lia.
  - apply nth_overflow. rewrite map_length, zseq_length. lia.
Qed.

Lemma fine_index x T : let z := T / 32768 - 32 * x + 992 in
  T / 1048576 = x - (31 - z / 32) /\ T mod 1048576 / 32768 = z mod 32.
Proof.
  intros z. assert (D : T / 1048576 = T / 32768 / 32) by (rewrite Z.div_div by lia; reflexivity).
  assert (M : T mod 1048576 / 32768 = (T / 32768) mod 32) by (Z.to_euclidean_division_equations; lia).
  rewrite D, M. set (n := T / 32768) in *. unfold z. Z.to_euclidean_division_equations; lia.
Qed.

Lemma pulse_entry K T p x : pulse_at K T p x = entry 0 (fine K) (pos x T) * p.
Proof.
  destruct (fine_index x T) as [D M]. unfold pos. replace (T / 32768 - 32 * x + 993) with (T / 32768 - 32 * x + 992 + 1) by ring. set (z := T / 32768 - 32 * x + 992) in *.
  unfold fine. rewrite entry_map. unfold pulse_at. rewrite D, M. fold (row_of K z). replace (x - (x - (31 - z / 32))) with (31 - z / 32) by ring.
  pose proof (Z.div_mod z 32 ltac:(lia)). pose proof (Z.mod_pos_bound z 32 ltac:(lia)).
  destruct (z <? 0) eqn:A; [replace (x <? x - (31 - z / 32) + 32) with false by lia; rewrite andb_false_r; lia|].
  destruct (z <? 1024) eqn:B.
  - replace ((x - (31 - z / 32) <=? x) && (x <? x - (31 - z / 32) + 32)) with true by lia. reflexivity.
  - replace (x - (31 - z / 32) <=? x) with false by lia. reflexivity.
Qed.

Lemma zsum_firstn_S (l : list Z) n : zsum (firstn (S n) l) = zsum (firstn n l) + nth n l 0.
Proof.
  revert n. induction l as [|x l IH]; intros n; [destruct n; reflexivity|]. destruct n as [|n]; [unfold zsum; cbn; lia|].
  change (firstn (S (S n)) (x :: l)) with (x :: firstn (S n) l). change (firstn (S n) (x :: l)) with (x :: firstn n l). cbn [nth].
  specialize (IH n). unfold zsum in *. cbn [fold_right]. lia.
Qed.

Definition gain_ok (K : list (list Z)) (g : Z) : Prop := forall row, In row K -> zsum row = g.

Lemma row_ok K z : kernel_ok K -> In (row_of K z) K /\ length (row_of K z) = 32%nat.
Proof.
  intros [L H]. unfold row_of. assert (I : In (nth (Z.to_nat (z mod 32)) K []) K) by (apply nth_In; pose proof (Z.mod_pos_bound z 32 ltac:(lia)); lia).
  split; [exact I|apply H, I].
Qed.

Lemma step_entry K g z : kernel_ok K -> gain_ok K g -> entry g (stepfine K) (Z.to_nat (z + 1)) = stepval K z.
Proof.
  intros HK HG. destruct (row_ok K z HK) as [I L]. unfold stepfine. rewrite entry_map. unfold stepval. pose proof (Z.div_mod z 32 ltac:(lia)). pose proof (Z.mod_pos_bound z 32 ltac:(lia)).
  destruct (z <? 0) eqn:A; [rewrite firstn_all2 by lia; symmetry; apply HG, I|]. destruct (z <? 1024) eqn:B; [reflexivity|].
  replace (Z.to_nat (32 - z / 32)) with O by lia. reflexivity.
Qed.

Lemma step_sum K g T p n : kernel_ok K -> gain_ok K g -> 0 <= T ->
  zsum (map (pulse_at K T p) (zseq 0 n)) = entry g (stepfine K) (pos (Z.of_nat n - 1) T) * p.
Proof.
  intros HK HG HT. unfold pos. induction n as [|n IH].
  - cbn [zseq map]. replace (T / 32768 - 32 * (Z.of_nat 0 - 1) + 993) with (T / 32768 + 1024 + 1) by lia. rewrite (step_entry K g) by assumption.
    assert (0 <= T / 32768) by (apply Z.div_pos; lia). unfold stepval. replace (Z.to_nat (32 - (T / 32768 + 1024) / 32)) with O; [reflexivity|].
    assert (32 <= (T / 32768 + 1024) / 32) by (apply Z.div_le_lower_bound; lia). lia.
  - replace (S n) with (n + 1)%nat by lia. rewrite zseq_app, map_app, zsum_app, IH. cbn [zseq map]. rewrite pulse_entry. unfold pos. set (x := Z.of_nat n).
    replace (0 + x) with x by ring. replace (Z.of_nat (n + 1) - 1) with x by lia. replace (T / 32768 - 32 * (x - 1) + 993) with (T / 32768 - 32 * x + 992 + 32 + 1) by ring.
    replace (T / 32768 - 32 * x + 993) with (T / 32768 - 32 * x + 992 + 1) by ring. set (z := T / 32768 - 32 * x + 992). rewrite !(step_entry K g) by assumption.
    assert (D : stepval K z = stepval K (z + 32) + entry 0 (fine K) (Z.to_nat (z + 1))); [|rewrite D; unfold zsum; cbn [fold_right]; ring].
    unfold fine. rewrite entry_map. unfold stepval. assert (row_of K (z + 32) = row_of K z) as ->. { unfold row_of. f_equal. f_equal. rewrite <- (Z.mul_1_l 32) at 1. rewrite Z.mod_add by lia. reflexivity. }
    replace ((z + 32) / 32) with (z / 32 + 1) by (rewrite <- (Z.mul_1_l 32) at 2; rewrite Z.div_add by lia; reflexivity).
    destruct (row_ok K z HK) as [I L]. pose proof (Z.div_mod z 32 ltac:(lia)). pose proof (Z.mod_pos_bound z 32 ltac:(lia)).
    destruct (z <? 0) eqn:A; [rewrite !firstn_all2 by lia; lia|]. destruct (z <? 1024) eqn:B.
    + replace (Z.to_nat (32 - z / 32)) with (S (Z.to_nat (32 - (z / 32 + 1)))) by lia. rewrite zsum_firstn_S. f_equal. unfold cell. f_equal. lia.
    + replace (Z.to_nat (32 - z / 32)) with O by lia. replace (Z.to_nat (32 - (z / 32 + 1))) with O by lia. reflexivity.
Qed.

(** ** Bounds for one source *)

Lemma levels_earlier lo hi t t' v l : t' <= t -> levels lo hi t v l -> levels lo hi t' v l.
Proof. intros H. destruct l as [|[u p] l]; [tauto|]. cbn [levels]. intros (A & B & C). split; [lia|]. split; assumption. Qed.

Lemma levels_prefix lo hi l1 l2 : forall t v, levels lo hi t v (l1 ++ l2) -> levels lo hi t v l1.
Proof. induction l1 as [|[u p] l1 IH]; intros t v; cbn [app levels]; [tauto|]. intros (A & B & C). split; [exact A|]. split; [exact B|]. eapply IH, C. Qed.

Lemma levels_times lo hi l : forall t v, levels lo hi t v l -> forall u p, In (u, p) l -> t <= u.
Proof. induction l as [|[w q] l IH]; intros t v H u p I; [destruct I|]. cbn [levels] in H. destruct H as (A & _ & C). destruct I as [E|I]; [assert (w = u) by congruence; lia|]. specialize (IH _ _ C _ _ I). lia. Qed.

Lemma pulses_weighted K l x : pulses_at K l x = weighted 0 (fine K) (pos x) l.
Proof. unfold pulses_at, weighted. f_equal. apply map_ext. intros [t p]. apply pulse_entry. Qed.

Lemma zsum_swap {A} (f : A -> Z -> Z) (l : list A) (ys : list Z) :
  zsum (map (fun y => zsum (map (fun a => f a y) l)) ys) = zsum (map (fun a => zsum (map (f a) ys)) l).
Proof.
  induction ys as [|y ys IH].
  - cbn. induction l as [|a l IHl]; [reflexivity|]. cbn. unfold zsum in *. cbn. lia.
  - cbn [map]. unfold zsum in *. cbn [fold_right]. rewrite IH. clear IH. induction l as [|a l IHl]; [reflexivity|]. cbn [map fold_right]. lia.
Qed.

Lemma sums_weighted K g l n : kernel_ok K -> gain_ok K g -> (forall t p, In (t, p) l -> 0 <= t) ->
  zsum (map (pulses_at K l) (zseq 0 n)) = weighted g (stepfine K) (pos (Z.of_nat n - 1)) l.
Proof.
  intros HK HG H. unfold pulses_at. rewrite (zsum_swap (fun tp y => pulse_at K (fst tp) (snd tp) y)). unfold weighted. f_equal. apply map_ext_in. intros [t p] I. cbn [fst snd].
  apply step_sum; [assumption..|]. eapply H, I.
Qed.

Lemma early x : exists t, t <= 0 /\ pos x t = O.
Proof. exists (32768 * Z.min 0 (32 * x - 993)). split; [lia|]. unfold pos. rewrite Z.mul_comm, Z.div_mul by lia. lia. Qed.

Lemma frame_bound K lo hi l x : lo <= 0 <= hi -> levels lo hi 0 0 l ->
  (lo - hi) * falls 0 (fine K) <= pulses_at K l x <= (hi - lo) * falls 0 (fine K).
Proof.
  intros Z0 H. rewrite pulses_weighted. destruct (early x) as (t & T0 & P). apply (levels_earlier _ _ _ t) in H; [|lia].
  pose proof (weighted_bound 0 (fine K) (pos x) lo hi (pos_mono x) Z0 l t P H) as B. pose proof (all_moves (fine K) 0). replace (rises 0 (fine K)) with (falls 0 (fine K)) in B by lia. lia.
Qed.

Lemma sum_bound K g lo hi l n : kernel_ok K -> gain_ok K g -> lo <= 0 <= hi -> levels lo hi 0 0 l ->
  lo * falls g (stepfine K) - hi * rises g (stepfine K) <= zsum (map (pulses_at K l) (zseq 0 n)) <= hi * falls g (stepfine K) - lo * rises g (stepfine K).
Proof.
  intros HK HG Z0 H. rewrite (sums_weighted K g) by (try assumption; exact (levels_times _ _ _ _ _ H)). destruct (early (Z.of_nat n - 1)) as (t & T0 & P).
  apply (levels_earlier _ _ _ t) in H; [|lia]. apply (weighted_bound g (stepfine K) (pos (Z.of_nat n - 1)) lo hi (pos_mono _) Z0 l t P H).
Qed.

(** ** All sources *)

Lemma from_app s l l' : from s (l ++ l') = from s l ++ from s l'.
Proof. unfold from. rewrite filter_app, map_app. reflexivity. Qed.

Lemma from_cons s s' tp l : from s ((s', tp) :: l) = if s' =? s then tp :: from s l else from s l.
Proof. unfold from. cbn [filter fst]. destruct (s' =? s); reflexivity. Qed.

Lemma pulses_by_source K l x : forall srcs, NoDup srcs -> (forall y, In y l -> In (fst y) srcs) ->
  pulses_at K (map snd l) x = zsum (map (fun s => pulses_at K (from s l) x) srcs).
Proof.
  intros srcs ND. induction l as [|[s [t p]] l IH]; intros H.
  - cbn. clear ND H. induction srcs as [|s srcs IH]; [reflexivity|]. cbn. unfold zsum in *. cbn. exact IH.
  - cbn [map snd]. rewrite pulses_at_cons, IH by (intros y I; apply H; right; exact I). specialize (H _ (or_introl eq_refl)). cbn [fst] in H. clear IH.
    induction srcs as [|s' srcs IH]; [destruct H|]. inversion ND as [|a b N1 N2]; subst. cbn [map]. unfold zsum in *. cbn [fold_right]. rewrite from_cons.
    destruct (Z.eqb_spec s s') as [->|NE].
    + rewrite pulses_at_cons. assert (E : map (fun s => pulses_at K (from s ((s', (t, p)) :: l)) x) srcs = map (fun s => pulses_at K (from s l) x) srcs).
      { apply map_ext_in. intros s I. rewrite from_cons. destruct (Z.eqb_spec s' s) as [->|]; [contradiction|reflexivity]. }
      rewrite E. lia.
    + destruct H as [->|H]; [contradiction|]. specialize (IH N2 H). lia.
Qed.

Lemma zsum_map_bound {A} (f g h : A -> Z) (l : list A) : (forall a, In a l -> f a <= g a <= h a) -> zsum (map f l) <= zsum (map g l) <= zsum (map h l).
Proof.
  induction l as [|a l IH]; intros H; [cbn; lia|]. cbn [map]. unfold zsum in *. cbn [fold_right]. pose proof (H a (or_introl eq_refl)). specialize (IH (fun b I => H b (or_intror I))). lia.
Qed.

Lemma zsum_map_scale {A} (f : A -> Z) c (l : list A) : zsum (map (fun a => f a * c) l) = zsum (map f l) * c.
Proof. induction l as [|a l IH]; [reflexivity|]. cbn [map]. unfold zsum in *. cbn [fold_right]. rewrite IH. ring. Qed.

Section sources.
Context (K : list (list Z)) (g : Z) (srcs : list Z) (lo hi : Z -> Z) (all : list (Z * (Z * Z))).
Hypothesis HK : kernel_ok K.
Hypothesis HG : gain_ok K g.
Hypothesis ND : NoDup srcs.
Hypothesis ZI : forall s, In s srcs -> lo s <= 0 <= hi s.
Hypothesis IN : forall x, In x all -> In (fst x) srcs.
Hypothesis LV : forall s, In s srcs -> levels (lo s) (hi s) 0 0 (from s all).

Definition cell_gain : Z := falls 0 (fine K).
Definition sum_gain : Z := falls g (stepfine K) + rises g (stepfine K).

Lemma falls_nonneg L : forall prev, 0 <= falls prev L.
Proof. induction L as [|x L IH]; intros prev; cbn [falls]; [lia|]. specialize (IH x). lia. Qed.
Lemma rises_nonneg L : forall prev, 0 <= rises prev L.
Proof. induction L as [|x L IH]; intros prev; cbn [rises]; [lia|]. specialize (IH x). lia. Qed.

Lemma prefix_levels Q R s : all = Q ++ R -> In s srcs -> levels (lo s) (hi s) 0 0 (from s Q).
Proof. intros E I. specialize (LV s I). rewrite E, from_app in LV. eapply levels_prefix, LV. Qed.

Lemma frames_bound Q R x : all = Q ++ R -> - (swing srcs lo hi * cell_gain) <= pulses_at K (map snd Q) x <= swing srcs lo hi * cell_gain.
Proof.
  intros E. rewrite (pulses_by_source K Q x srcs ND) by (intros y I; apply IN; rewrite E; apply in_or_app; left; exact I).
  pose proof (zsum_map_bound (fun s => - (hi s - lo s) * cell_gain) (fun s => pulses_at K (from s Q) x) (fun s => (hi s - lo s) * cell_gain) srcs) as B.
  destruct B as [B1 B2].
  { intros s I. pose proof (frame_bound K (lo s) (hi s) (from s Q) x (ZI s I) (prefix_levels Q R s E I)) as B. cbv beta.
    rewrite Z.opp_sub_distr. replace (- hi s + lo s) with (lo s - hi s) by ring.
    exact B. }
  rewrite zsum_map_scale in B1, B2. unfold swing.
  assert (O : zsum (map (fun s => - (hi s - lo s)) srcs) = - zsum (map (fun s => hi s - lo s) srcs)).
  { clear. induction srcs as [|s l IH]; [reflexivity|]. cbn [map]. unfold zsum in *. cbn [fold_right]. lia. } rewrite O in B1. lia.
Qed.

(** Lowest and highest sum of frames. *)
Definition sum_lo : Z := zsum (map (fun s => lo s * falls g (stepfine K) - hi s * rises g (stepfine K)) srcs).
Definition sum_hi : Z := zsum (map (fun s => hi s * falls g (stepfine K) - lo s * rises g (stepfine K)) srcs).

Lemma sums_bound Q R n : all = Q ++ R -> sum_lo <= zsum (map (pulses_at K (map snd Q)) (zseq 0 n)) <= sum_hi.
Proof.
  intros E. assert (X : zsum (map (pulses_at K (map snd Q)) (zseq 0 n)) = zsum (map (fun s => zsum (map (pulses_at K (from s Q)) (zseq 0 n))) srcs)).
  { rewrite <- (zsum_swap (fun s y => pulses_at K (from s Q) y)). f_equal. apply map_ext. intros y.
    apply (pulses_by_source K Q y srcs ND). intros z I; apply IN; rewrite E; apply in_or_app; left; exact I. }
  rewrite X. unfold sum_lo, sum_hi. apply zsum_map_bound. intros s I. apply (sum_bound K g); [assumption..|exact (ZI s I)|exact (prefix_levels Q R s E I)].
Qed.

Lemma sum_width : sum_hi - sum_lo = swing srcs lo hi * sum_gain /\ sum_lo <= 0 <= sum_hi.
Proof.
  unfold sum_hi, sum_lo, swing, sum_gain. pose proof (falls_nonneg (stepfine K) g) as F. pose proof (rises_nonneg (stepfine K) g) as R.
  set (f := falls g (stepfine K)) in *. set (r := rises g (stepfine K)) in *. clear - ZI F R. induction srcs as [|s l IH]; [cbn; lia|].
  cbn [map]. unfold zsum in *. cbn [fold_right]. pose proof (ZI s (or_introl eq_refl)). destruct (IH (fun s I => ZI s (or_intror I))) as [A B]. split; [nia|nia].
Qed.
End sources.

(** ** The filter *)

(** The accumulator lies between what the sums of the frames allow. *)
Lemma integrate_bound lo hi d : lo <= 0 <= hi -> forall a0 s, - hi <= a0 - s <= - lo -> lo <= s <= hi ->
  (forall n, (n <= length d)%nat -> lo <= s + zsum (firstn n d) <= hi) -> Forall (fun a => lo - hi <= a <= hi - lo) (integrate a0 d).
Proof.
  intros Z0. induction d as [|x d IH]; intros a s A SB H; cbn [integrate]; [constructor|].
  pose proof (H 1%nat ltac:(cbn; lia)) as H1. cbn [firstn] in H1. unfold zsum in H1. cbn [fold_right] in H1.
  assert (D : - hi <= a - a / 512 + x - (s + x) <= - lo) by (Z.to_euclidean_division_equations; lia).
  constructor; [lia|]. apply (IH _ (s + x)); [exact D|lia|]. intros n N. specialize (H (S n) ltac:(cbn; lia)). cbn [firstn] in H. unfold zsum in *. cbn [fold_right] in H. lia.
Qed.

Lemma zsum_firstn_map K P n m : (n <= m)%nat -> zsum (firstn n (map (pulses_at K P) (zseq 0 m))) = zsum (map (pulses_at K P) (zseq 0 n)).
Proof.
  intros H. replace m with (n + (m - n))%nat by lia. rewrite zseq_app, map_app, firstn_app, firstn_all2 by (rewrite map_length, zseq_length; lia).
  rewrite map_length, zseq_length, Nat.sub_diag. cbn [firstn]. rewrite app_nil_r. reflexivity.
Qed.

(** ** Mixing and reading *)

(** Pulses can be added if all frames are in range after each of them. *)
Lemma mix_prefixes l : forall b, buffer_ok b ->
  (forall l1 l2 j, l = l1 ++ l2 -> 0 <= j < 4129 -> is_s32 (cell (b_frames b) j + pulses_at (b_pulse b) (local_pulses b l1) j)) ->
  exists b', add_all b l = Ok b'.
Proof.
  induction l as [|[t p] l IH]; intros b H B; cbn [add_all]; [eauto|].
  destruct (add_pulse_spec b t p H) as [(F & K1 & K2 & K3 & K4)|(K1 & j & K2 & K3)].
  - rewrite K1. cbn [bind]. apply IH; [exact (add_pulse_ok _ _ _ _ H K1)|]. intros l1 l2 j E Hj. cbn [with_frames b_frames b_pulse]. rewrite K4 by lia.
    change (local_pulses (with_frames b F) l1) with (local_pulses b l1). specialize (B ((t, p) :: l1) l2 j ltac:(rewrite E; reflexivity) Hj).
    unfold local_pulses in B. cbn [map fst snd] in B. rewrite pulses_at_cons in B. unfold local_pulses. unfold is_s32 in *. lia.
  - exfalso. apply K3. specialize (B [(t, p)] l j eq_refl K2). unfold local_pulses in B. cbn [map fst snd] in B. rewrite pulses_at_cons in B. change (pulses_at (b_pulse b) [] j) with 0 in B. rewrite Z.add_0_r in B. exact B.
Qed.

Lemma read_defined b n : buffer_ok b -> 0 <= n -> Forall is_s32 (integrate (b_accum b) (firstn (Z.to_nat (BKMin n (b_capacity b))) (b_frames b))) ->
  exists b' s, BKBufferRead b n = Ok (b', s).
Proof.
  intros H N F. rewrite read_unfold by assumption. cbv zeta. assert (A : is_s32 (b_accum b)) by (destruct H as (_ & _ & _ & _ & A & _); exact A).
  destruct (read_loop_spec (firstn (Z.to_nat (BKMin n (b_capacity b))) (b_frames b)) (b_accum b) A) as [(a & E & _)|(_ & E)]; [|contradiction].
  rewrite E. cbn [bind]. eauto.
Qed.

Definition at_now (now : Z) (x : Z * (Z * Z)) : Z * (Z * Z) := (fst x, (now + fst (snd x), snd (snd x))).

Lemma local_abs b now rd te (l : list (Z * Z)) : b_time b = now - rd * 1048576 -> 0 <= b_time b -> now + te - rd * 1048576 < 4294967296 ->
  (forall t p, In (t, p) l -> 0 <= t <= te /\ is_s16 p) -> forall j,
  pulses_at (b_pulse b) (local_pulses b l) j = pulses_at (b_pulse b) (map (fun tp => (now + fst tp, snd tp)) l) (j + rd).
Proof.
  intros T T0 B H j. induction l as [|[t p] l IH]; [reflexivity|]. unfold local_pulses in *. cbn [map fst snd]. rewrite !pulses_at_cons.
  rewrite IH by (intros; apply H; right; assumption). destruct (H t p (or_introl eq_refl)) as [Q1 Q2]. rewrite s16_id by assumption. rewrite u32_id by lia.
  replace (now + t) with (b_time b + t + rd * 1048576) by lia. rewrite pulse_at_shift. reflexivity.
Qed.

Lemma integrate_end_app a d d' : integrate_end a (d ++ d') = integrate_end (integrate_end a d) d'.
Proof.
  revert a. induction d as [|x d IH]; intros a; [reflexivity|]. unfold integrate_end in *. cbn [app integrate]. rewrite !last_cons. apply IH.
Qed.

Section rounds.
Context (K : list (list Z)) (g : Z) (srcs : list Z) (lo hi : Z -> Z) (all : list (Z * (Z * Z))).
Hypothesis HK : kernel_ok K.
Hypothesis HG : gain_ok K g.
Hypothesis ND : NoDup srcs.
Hypothesis ZI : forall s, In s srcs -> lo s <= 0 <= hi s.
Hypothesis IN : forall x, In x all -> In (fst x) srcs.
Hypothesis LV : forall s, In s srcs -> levels (lo s) (hi s) 0 0 (from s all).
Hypothesis CG : swing srcs lo hi * cell_gain K <= 2147483647.
Hypothesis SG : swing srcs lo hi * sum_gain K g <= 2147483647.

Lemma integrate_all Q R n : all = Q ++ R -> Forall (fun a => - (swing srcs lo hi * sum_gain K g) <= a <= swing srcs lo hi * sum_gain K g) (integrate 0 (map (pulses_at K (map snd Q)) (zseq 0 n))).
Proof.
  intros E. destruct (sum_width K g srcs lo hi ZI) as [W Z0]. eapply Forall_impl; [|apply (integrate_bound (sum_lo K g srcs lo hi) (sum_hi K g srcs lo hi) _ Z0 0 0); [lia|lia|]].
  - intros a A. cbv beta in A |- *. lia.
  - intros k Hk. rewrite map_length, zseq_length in Hk. rewrite zsum_firstn_map by exact Hk. rewrite Z.add_0_l.
    exact (sums_bound K g srcs lo hi all HK HG ND ZI IN LV Q R k E).
Qed.

Lemma mix_rounds rs : forall b now rd P,
  stream_inv b now rd (map snd P) -> b_pulse b = K -> now mod 1048576 = 0 -> 0 <= rd <= now / 1048576 ->
  rounds_ok now rd (map plain rs) -> whole_frames (map plain rs) -> all = P ++ labelled now rs ->
  b_accum b = integrate_end 0 (map (pulses_at K (map snd P)) (zseq 0 (Z.to_nat rd))) ->
  exists b' s, rounds_run b (raw_rounds (map plain rs)) = Ok (b', s).
Proof.
  induction rs as [|r rs IH]; intros b now rd P I KB W0 RD R W E A; [cbn; eauto|]. pose proof capacity_val as Hcap.
  cbn [map raw_rounds rounds_run]. fold (raw_rounds (map plain rs)). cbn [map rounds_ok plain r_end r_pulses r_read] in R. destruct R as (R1 & R2 & R3 & R4 & R5).
  cbn [map] in W. inversion W as [|x y W1 W2]; subst x y. cbn [plain r_end r_pulses r_read] in W1 |- *. cbn [labelled] in E. fold (at_now now) in E. change (map (fun x => (fst x, (now + fst (snd x), snd (snd x)))) (sr_pulses r)) with (map (at_now now) (sr_pulses r)) in E.
  pose proof I as (I1 & I2 & I3 & I4 & I5). assert (T0 : 0 <= b_time b < 4294967296) by apply I1.
  assert (AB : forall l, map snd (map (at_now now) l) = map (fun tp => (now + fst tp, snd tp)) (map snd l)) by (intros l; rewrite !map_map; reflexivity).
  (* mixing *)
  assert (M : exists b1, add_all b (map snd (sr_pulses r)) = Ok b1).
  { apply mix_prefixes; [exact I1|]. intros l1 l2 j EL J. rewrite (local_abs b now rd (sr_end r) l1 I2 ltac:(lia) ltac:(lia)) by (intros t p X; apply R2; rewrite EL; apply in_or_app; left; exact X).
    rewrite I4 by lia. apply map_eq_app in EL as (lp1 & lp2 & EL & EL1 & EL2). subst l1 l2. rewrite <- AB, KB, <- pulses_at_app, <- map_app.
    pose proof (frames_bound K srcs lo hi all ND ZI IN LV (P ++ map (at_now now) lp1) (map (at_now now) lp2 ++ labelled (now + sr_end r) rs) (j + rd)) as B.
    unfold is_s32. enough (- (swing srcs lo hi * cell_gain K) <= pulses_at K (map snd (P ++ map (at_now now) lp1)) (j + rd) <= swing srcs lo hi * cell_gain K) by lia. apply B.
    rewrite E, EL, map_app, <- !app_assoc. reflexivity. }
  destruct M as (b1 & M). assert (RR : exists b' s, round_run b (map snd (sr_pulses r)) (sr_end r) (sr_read r) = Ok (b', s)).
  { unfold round_run. rewrite M. cbn [bind]. destruct (add_all_spec _ _ _ I1 M) as (O1 & V1 & C1). set (b3 := BKBufferShift (BKBufferEnd b1 (sr_end r)) (sr_end r)).
    assert (O3 : buffer_ok b3) by (apply shift_ok, end_ok, O1). apply read_defined; [exact O3|lia|]. assert (A3 : b_accum b3 = b_accum b) by (unfold b3; cbn; rewrite V1; reflexivity). rewrite A3.
    change (b_frames b3) with (b_frames b1). assert (C3 : 0 <= b_capacity b3 <= 4095) by apply O3. set (m := BKMin (sr_read r) (b_capacity b3)).
    assert (MB : 0 <= m <= 4095) by (unfold m, BKMin; destruct (sr_read r <? b_capacity b3) eqn:?; lia).
    set (P' := P ++ map (at_now now) (sr_pulses r)).
    assert (FD : firstn (Z.to_nat m) (b_frames b1) = map (pulses_at K (map snd P')) (zseq rd (Z.to_nat m))).
    { assert (L1 : length (b_frames b1) = BK_BUFFER_CAPACITY) by apply O1. apply nth_ext with (d := 0) (d' := pulses_at K (map snd P') 0); [rewrite firstn_length, map_length, zseq_length; lia|].
      intros i Hi. rewrite firstn_length in Hi. rewrite nth_firstn_lt by lia. rewrite map_nth, zseq_nth by lia.
      specialize (C1 (Z.of_nat i) ltac:(lia)). unfold cell in C1 at 1. rewrite Nat2Z.id in C1. rewrite C1, I4 by lia.
      rewrite (local_abs b now rd (sr_end r) _ I2 ltac:(lia) ltac:(lia) R2), KB, <- AB, <- pulses_at_app, <- map_app. fold P'. f_equal. lia. }
    rewrite FD, A. pose proof (integrate_all P' (labelled (now + sr_end r) rs) (Z.to_nat rd + Z.to_nat m)) as F. rewrite E in F. unfold P' in F at 1. rewrite <- app_assoc in F. specialize (F eq_refl).
    rewrite zseq_app, map_app, integrate_app in F. apply Forall_app in F as [_ F]. rewrite Z.add_0_l, Z2Nat.id in F by lia.
    assert (PE : map (pulses_at K (map snd P')) (zseq 0 (Z.to_nat rd)) = map (pulses_at K (map snd P)) (zseq 0 (Z.to_nat rd))).
    { apply map_ext_in. intros y Y. apply zseq_In in Y. unfold P'. rewrite map_app, pulses_at_app, AB. rewrite (pulses_at_zero K (map (fun tp => (now + fst tp, snd tp)) (map snd (sr_pulses r)))); [lia|].
      intros t p X. apply in_map_iff in X as ([t' p'] & X & Y'). assert (t = now + t') as -> by (cbn in X; congruence). apply pulse_at_before. destruct (R2 _ _ Y') as [Q _].
      apply Z.lt_le_trans with rd; [lia|]. transitivity (now / 1048576); [lia|]. apply Z.div_le_mono; lia. }
    rewrite PE in F. eapply Forall_impl; [|exact F]. intros a B. cbv beta in B. unfold is_s32. lia. }
  destruct RR as (b' & s & RR). rewrite RR. cbn [bind fst snd].
  destruct (stream_step b now rd (map snd P) (plain r) b' s I R1 R2 R3 R4 W0 W1 RR) as (I' & K' & _ & A'). cbn [plain r_end r_pulses r_read] in I', A'.
  rewrite <- AB, <- map_app in I', A'. rewrite KB in A', K'.
  destruct (IH b' (now + sr_end r) (rd + sr_read r) (P ++ map (at_now now) (sr_pulses r)) I' K') as (b2 & s2 & E2).
  - rewrite Z.add_mod, W0, W1 by lia. reflexivity.
  - lia.
  - exact R5.
  - exact W2.
  - rewrite E, <- app_assoc. reflexivity.
  - rewrite A', A, Z2Nat.inj_add, zseq_app by lia. rewrite (map_app (pulses_at K _)), integrate_end_app. rewrite Z.add_0_l, Z2Nat.id by lia. f_equal. f_equal. apply map_ext_in. intros y Y. apply zseq_In in Y. rewrite map_app, pulses_at_app, AB. rewrite (pulses_at_zero K (map (fun tp => (now + fst tp, snd tp)) (map snd (sr_pulses r)))); [lia|].
    intros t p X. apply in_map_iff in X as ([t' p'] & X & Y'). assert (t = now + t') as -> by (cbn in X; congruence). apply pulse_at_before. destruct (R2 _ _ Y') as [Q _].
    apply Z.lt_le_trans with rd; [lia|]. transitivity (now / 1048576); [lia|]. apply Z.div_le_mono; lia.
  - rewrite E2. cbn [bind]. eauto.
Qed.
End rounds.
