(** Families of doubly linked lists, one per owner. *)
From Verif Require Import CIntFacts DList.

(** [V] tells which owners exist, [own c] is the owner recorded in node [c]. *)
Record family {K : Type} (V : K -> Prop) (nx pv : Z -> Z) (own : Z -> option K)
       (first last : K -> Z) (A : K -> list Z) : Prop := {
  fam_dll : forall k, V k -> dll nx pv (first k) (last k) (A k);
  fam_mem : forall k c, V k -> (In c (A k) <-> c <> 0 /\ own c = Some k) }.

Lemma family_insert {K} (V : K -> Prop) (nx pv nx' pv' : Z -> Z) own own' first last first' last' A A' (x : K) c l1 l2 :
  family V nx pv own first last A -> V x -> c <> 0 ->
  (forall y, V y -> ~ In c (A y)) -> A x = l1 ++ l2 ->
  A' x = l1 ++ c :: l2 -> (forall y, y <> x -> A' y = A y) -> (forall y, y = x \/ y <> x) ->
  nx' c = hd 0 l2 -> pv' c = List.last l1 0 -> own' c = Some x ->
  (forall y, y <> c -> own' y = own y) ->
  (forall y, y <> c -> nx' y = if (y =? List.last l1 0) && negb (y =? 0) then c else nx y) ->
  (forall y, y <> c -> pv' y = if (y =? hd 0 l2) && negb (y =? 0) then c else pv y) ->
  (forall y, V y -> y <> x -> first' y = first y /\ last' y = last y) ->
  first' x = hd c l1 -> last' x = List.last l2 c ->
  family V nx' pv' own' first' last' A'.
Proof.
  intros [R1 R2] Hx Hc N E EA EB DEC P1 P2 P3 Q1 Q2 Q3 Q4 Q5 Q6.
  assert (Dx := R1 x Hx). rewrite E in Dx. destruct Dx as (D1 & D2 & D3 & D4).
  assert (NI : ~ In c (l1 ++ l2)) by (rewrite <- E; apply N; exact Hx).
  assert (NZ : forall y, In y (l1 ++ l2) -> y <> 0) by (intros y Hy; exact (dseg_nonnull _ _ _ _ _ _ D3 Hy)).
  split.
  - intros y Hy. destruct (DEC y) as [->|NE].
    + rewrite EA. split; [|split; [|split]].
      * rewrite Q5, hd_app_ne. reflexivity.
      * rewrite Q6, last_app_cons. reflexivity.
      * apply (dseg_insert nx pv); auto.
        -- intros L. assert (I1 : In (List.last l1 0) (l1 ++ l2)) by (apply in_or_app; left; apply last_In; exact L).
           rewrite Q2 by (intros W; rewrite W in I1; contradiction). rewrite Z.eqb_refl.
           replace (List.last l1 0 =? 0) with false by (specialize (NZ _ I1); lia). reflexivity.
        -- intros L. assert (I1 : In (hd 0 l2) (l1 ++ l2)) by (apply in_or_app; right; destruct l2; [congruence|left; reflexivity]).
           rewrite Q3 by (intros W; rewrite W in I1; contradiction). rewrite Z.eqb_refl.
           replace (hd 0 l2 =? 0) with false by (specialize (NZ _ I1); lia). reflexivity.
        -- intros z Hz L. assert (Z0 := NZ z Hz). rewrite Q2 by (intros ->; contradiction).
           destruct L as [->|L]; [cbn [List.last]; replace (z =? 0) with false by lia; reflexivity|].
           replace (z =? List.last l1 0) with false by lia. reflexivity.
        -- intros z Hz L. assert (Z0 := NZ z Hz). rewrite Q3 by (intros ->; contradiction).
           destruct L as [->|L]; [cbn [hd]; replace (z =? 0) with false by lia; reflexivity|].
           replace (z =? hd 0 l2) with false by lia. reflexivity.
      * apply nodup_mid; assumption.
    + rewrite (EB y NE). destruct (R1 y Hy) as (A1 & A2 & A3 & A4). destruct (Q4 y Hy NE) as (-> & ->).
      split; [exact A1|]. split; [exact A2|]. split; [|exact A4].
      apply (dseg_ext nx pv); [exact A3|]. intros z Hz.
      assert (ZC : z <> c) by (intros ->; apply (N y Hy Hz)).
      assert (ZO : ~ In z (l1 ++ l2)).
      { intros I2. rewrite <- E in I2. apply R2 in I2; auto. apply R2 in Hz; auto. destruct I2, Hz. congruence. }
      assert (Z0 : z <> 0) by (exact (dseg_nonnull _ _ _ _ _ _ A3 Hz)).
      rewrite Q2, Q3 by exact ZC. split.
      * destruct (Z.eqb_spec z (List.last l1 0)) as [L|L]; [|reflexivity].
        destruct l1; [cbn in L; lia|]. exfalso. apply ZO. rewrite L. apply in_or_app; left; apply last_In; congruence.
      * destruct (Z.eqb_spec z (hd 0 l2)) as [L|L]; [|reflexivity].
        destruct l2; [cbn in L; lia|]. exfalso. apply ZO. rewrite L. apply in_or_app; right; left; reflexivity.
  - intros y z Hy. destruct (DEC y) as [->|NE].
    + rewrite EA. destruct (Z.eq_dec z c) as [->|ZC].
      * split; [auto|]. intros _. apply in_elt.
      * rewrite Q1 by exact ZC. rewrite <- R2 by exact Hx. rewrite E. rewrite !in_app_iff. cbn [In].
        split; [intros [H|[H|H]]; [tauto|congruence|tauto]|tauto].
    + rewrite (EB y NE). destruct (Z.eq_dec z c) as [->|ZC].
      * split; [intros H; exfalso; exact (N y Hy H)|]. intros (_ & H). congruence.
      * rewrite Q1 by exact ZC. apply R2. exact Hy.
Qed.

Lemma family_remove {K} (V : K -> Prop) (nx pv nx' pv' : Z -> Z) own own' first last first' last' A A' (x : K) c l1 l2 :
  family V nx pv own first last A -> V x -> A x = l1 ++ c :: l2 ->
  A' x = l1 ++ l2 -> (forall y, y <> x -> A' y = A y) -> (forall y, y = x \/ y <> x) ->
  (forall k, V k -> own' c <> Some k) ->
  (forall y, y <> c -> own' y = own y) ->
  (forall y, y <> c -> nx' y = if (y =? List.last l1 0) && negb (y =? 0) then hd 0 l2 else nx y) ->
  (forall y, y <> c -> pv' y = if (y =? hd 0 l2) && negb (y =? 0) then List.last l1 0 else pv y) ->
  (forall y, V y -> y <> x -> first' y = first y /\ last' y = last y) ->
  first' x = hd 0 (l1 ++ l2) -> last' x = List.last (l1 ++ l2) 0 ->
  family V nx' pv' own' first' last' A'.
Proof.
  intros [R1 R2] Hx E EA EB DEC P3 Q1 Q2 Q3 Q4 Q5 Q6.
  assert (Dx := R1 x Hx). rewrite E in Dx. destruct Dx as (D1 & D2 & D3 & D4).
  destruct (nodup_del _ _ _ D4) as (N1 & NI).
  assert (NZ : forall y, In y (l1 ++ l2) -> y <> 0).
  { intros y Hy. apply (dseg_nonnull _ _ _ _ _ y D3). rewrite in_app_iff in *. cbn [In]. tauto. }
  split.
  - intros y Hy. destruct (DEC y) as [->|NE].
    + rewrite EA. split; [exact Q5|]. split; [exact Q6|]. split; [|exact N1].
      apply (dseg_remove nx pv _ _ l1 l2 c); auto.
      -- intros L. assert (I1 : In (List.last l1 0) (l1 ++ l2)) by (apply in_or_app; left; apply last_In; exact L).
         rewrite Q2 by (intros W; rewrite W in I1; contradiction). rewrite Z.eqb_refl.
         replace (List.last l1 0 =? 0) with false by (specialize (NZ _ I1); lia). reflexivity.
      -- intros L. assert (I1 : In (hd 0 l2) (l1 ++ l2)) by (apply in_or_app; right; destruct l2; [congruence|left; reflexivity]).
         rewrite Q3 by (intros W; rewrite W in I1; contradiction). rewrite Z.eqb_refl.
         replace (hd 0 l2 =? 0) with false by (specialize (NZ _ I1); lia). reflexivity.
      -- intros z Hz L. assert (Z0 := NZ z Hz). rewrite Q2 by (intros ->; contradiction).
         destruct L as [->|L]; [cbn [List.last]; replace (z =? 0) with false by lia; reflexivity|].
         replace (z =? List.last l1 0) with false by lia. reflexivity.
      -- intros z Hz L. assert (Z0 := NZ z Hz). rewrite Q3 by (intros ->; contradiction).
         destruct L as [->|L]; [cbn [hd]; replace (z =? 0) with false by lia; reflexivity|].
         replace (z =? hd 0 l2) with false by lia. reflexivity.
    + rewrite (EB y NE). destruct (R1 y Hy) as (A1 & A2 & A3 & A4). destruct (Q4 y Hy NE) as (-> & ->).
      split; [exact A1|]. split; [exact A2|]. split; [|exact A4].
      apply (dseg_ext nx pv); [exact A3|]. intros z Hz.
      assert (ZO : ~ In z (l1 ++ c :: l2)).
      { intros I2. rewrite <- E in I2. apply R2 in I2; auto. apply R2 in Hz; auto. destruct I2, Hz; congruence. }
      assert (ZC : z <> c) by (intros ->; apply ZO; apply in_elt).
      assert (Z0 : z <> 0) by (exact (dseg_nonnull _ _ _ _ _ _ A3 Hz)).
      rewrite Q2, Q3 by exact ZC. rewrite in_app_iff in ZO. cbn [In] in ZO. split.
      * destruct (Z.eqb_spec z (List.last l1 0)) as [L|L]; [|reflexivity].
        destruct l1; [cbn in L; lia|]. exfalso. apply ZO. left. rewrite L. apply last_In; congruence.
      * destruct (Z.eqb_spec z (hd 0 l2)) as [L|L]; [|reflexivity].
        destruct l2; [cbn in L; lia|]. exfalso. apply ZO. right; right. left. symmetry; exact L.
  - intros y z Hy. destruct (DEC y) as [->|NE].
    + rewrite EA. destruct (Z.eq_dec z c) as [->|ZC].
      * split; [intros H; contradiction|]. intros (_ & H). exfalso. exact (P3 x Hx H).
      * rewrite Q1 by exact ZC. rewrite <- R2 by exact Hx. rewrite E. rewrite !in_app_iff. cbn [In].
        split; [tauto|]. intros [H|[H|H]]; [tauto|congruence|tauto].
    + rewrite (EB y NE). destruct (Z.eq_dec z c) as [->|ZC].
      * assert (Cx : own c = Some x) by (apply (R2 x c Hx); rewrite E; apply in_elt).
        split; [|intros (_ & H); exfalso; exact (P3 y Hy H)]. intros H. apply R2 in H; auto. destruct H. congruence.
      * rewrite Q1 by exact ZC. apply R2. exact Hy.
Qed.

(** Links around a member. *)
Lemma family_around {K} (V : K -> Prop) nx pv own first last A (x : K) c l1 l2 :
  family V nx pv own first last A -> V x -> A x = l1 ++ c :: l2 ->
  pv c = List.last l1 0 /\ nx c = hd 0 l2 /\ c <> 0 /\ own c = Some x /\
  ~ In c l1 /\ ~ In c l2 /\ (forall y, In y l1 -> ~ In y l2) /\
  (forall y, In y l1 \/ In y l2 -> y <> 0) /\
  first x = hd c l1 /\ last x = List.last l2 c.
Proof.
  intros [R1 R2] Hx E. destruct (R1 x Hx) as (D1 & D2 & D3 & D4). rewrite E in *.
  destruct (dseg_pv _ _ _ _ _ _ _ D3) as (H1 & H2 & H3).
  destruct (nodup_del _ _ _ D4) as (N1 & NI). rewrite in_app_iff in NI.
  assert (M : In c (A x)) by (rewrite E; apply in_elt). apply R2 in M; auto.
  split; [exact H1|]. split; [exact H2|]. split; [exact H3|]. split; [tauto|]. split; [tauto|]. split; [tauto|].
  split; [|split; [|split]].
  - clear - N1. induction l1 as [|a l1 IH]; [intros y []|]. cbn [app] in N1. inversion N1; subst.
    intros y [<-|Hy]; [rewrite in_app_iff in H1; tauto|]. apply IH; auto.
  - intros y Hy. apply (dseg_nonnull _ _ _ _ _ y D3). rewrite in_app_iff. cbn [In]. tauto.
  - rewrite D1, hd_app_ne. reflexivity.
  - rewrite D2, last_app_cons. reflexivity.
Qed.

Lemma family_ext {K} (V : K -> Prop) (nx pv nx' pv' : Z -> Z) own own' first last first' last' A :
  family V nx pv own first last A ->
  (forall y, nx' y = nx y /\ pv' y = pv y /\ own' y = own y) ->
  (forall k, V k -> first' k = first k /\ last' k = last k) ->
  family V nx' pv' own' first' last' A.
Proof.
  intros [R1 R2] E1 E2. split.
  - intros x Hx. destruct (E2 x Hx) as (-> & ->). destruct (R1 x Hx) as (A1 & A2 & A3 & A4).
    split; [exact A1|]. split; [exact A2|]. split; [|exact A4].
    apply (dseg_ext _ _ _ _ _ _ _ A3). intros y _. destruct (E1 y) as (B & C & _). auto.
  - intros x c Hx. destruct (E1 c) as (_ & _ & ->). apply R2. exact Hx.
Qed.

(** Pieces of a list. *)
Lemma last_in_or_zero l : List.last l 0 = 0 \/ In (List.last l 0) l.
Proof. destruct l as [|a l]; [left; reflexivity|right]. apply last_In. congruence. Qed.
Lemma hd_in_or_zero (l : list Z) : hd 0 l = 0 \/ In (hd 0 l) l.
Proof. destruct l as [|a l]; [left; reflexivity|right; left; reflexivity]. Qed.
