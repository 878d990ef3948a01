(** Doubly linked lists described by two link functions. *)
From Verif Require Import CIntFacts.

(** [dseg nx pv p l q]: the nodes of [l] are linked in both directions; the
    node before the segment is [p], the node after it [q]. *)
Fixpoint dseg (nx pv : Z -> Z) (p : Z) (l : list Z) (q : Z) : Prop :=
  match l with
  | [] => True
  | x :: l => x <> 0 /\ pv x = p /\ nx x = hd q l /\ dseg nx pv x l q
  end.

(** A complete list with first and last pointer; 0 is the null pointer. *)
Definition dll (nx pv : Z -> Z) (first last : Z) (l : list Z) : Prop :=
  first = hd 0 l /\ last = List.last l 0 /\ dseg nx pv 0 l 0 /\ NoDup l.

Lemma dseg_ext nx pv nx' pv' l : forall p q, dseg nx pv p l q ->
  (forall x, In x l -> nx' x = nx x /\ pv' x = pv x) -> dseg nx' pv' p l q.
Proof.
  induction l as [|a l IH]; intros p q H E; cbn [dseg] in *; [exact I|].
  destruct H as (H0 & H1 & H2 & H3). destruct (E a (or_introl eq_refl)) as (E1 & E2).
  split; [exact H0|]. split; [congruence|]. split; [congruence|].
  apply IH; auto. intros x Hx. apply E. right; exact Hx.
Qed.

Lemma dseg_app nx pv l1 : forall p l2 q,
  dseg nx pv p (l1 ++ l2) q <-> dseg nx pv p l1 (hd q l2) /\ dseg nx pv (List.last l1 p) l2 q.
Proof.
  induction l1 as [|a l1 IH]; intros p l2 q.
  - cbn. tauto.
  - cbn [app dseg]. rewrite IH.
    assert (E : List.last (a :: l1) p = List.last l1 a).
    { clear. revert a. induction l1 as [|b l1 IH]; intros a; [reflexivity|].
      change (List.last (a :: b :: l1) p) with (List.last (b :: l1) p). rewrite IH.
      destruct l1; [reflexivity|]. cbn. clear. revert z. induction l1; intros; [reflexivity|]. cbn. destruct l1; auto. }
    rewrite E. assert (F : hd q (l1 ++ l2) = hd (hd q l2) l1) by (destruct l1; reflexivity).
    rewrite F. tauto.
Qed.

Lemma dseg_nonnull nx pv l : forall p q x, dseg nx pv p l q -> In x l -> x <> 0.
Proof.
  induction l as [|a l IH]; intros p q x H I; [destruct I|]. destruct H as (H0 & _ & _ & H3).
  destruct I as [->|I]; [exact H0|]. eapply IH; eauto.
Qed.

Lemma last_cons_ne (a : Z) l d : List.last (a :: l) d = List.last l a.
Proof.
  revert a d. induction l as [|b l IH]; intros a d; [reflexivity|].
  change (List.last (a :: b :: l) d) with (List.last (b :: l) d). rewrite (IH b d).
  symmetry. apply IH.
Qed.

Lemma last_In (l : list Z) d : l <> [] -> In (List.last l d) l.
Proof.
  intros H. induction l as [|a l IH]; [congruence|]. destruct l as [|b l]; [left; reflexivity|].
  right. apply IH. congruence.
Qed.

Lemma last_app_cons (l1 l2 : list Z) a d : List.last (l1 ++ a :: l2) d = List.last l2 a.
Proof.
  revert a d. induction l1 as [|b l1 IH]; intros a d; cbn [app].
  - apply last_cons_ne.
  - rewrite last_cons_ne. apply IH.
Qed.

Lemma hd_app_ne (l1 l2 : list Z) d : hd d (l1 ++ l2) = hd (hd d l2) l1.
Proof. destruct l1; reflexivity. Qed.

Lemma last_default (l : list Z) d d' : l <> [] -> List.last l d = List.last l d'.
Proof.
  intros H. induction l as [|a l IH]; [congruence|]. destruct l as [|b l]; [reflexivity|].
  change (List.last (a :: b :: l) d) with (List.last (b :: l) d).
  change (List.last (a :: b :: l) d') with (List.last (b :: l) d'). apply IH. congruence.
Qed.

Lemma nodup_mid (l1 l2 : list Z) c : NoDup (l1 ++ l2) -> ~ In c (l1 ++ l2) -> NoDup (l1 ++ c :: l2).
Proof.
  intros N I. apply NoDup_Add with (l := l1 ++ l2) (a := c); [apply Add_app|]. split; assumption.
Qed.

Lemma nodup_del (l1 l2 : list Z) c : NoDup (l1 ++ c :: l2) -> NoDup (l1 ++ l2) /\ ~ In c (l1 ++ l2).
Proof. intros N. apply NoDup_remove in N. exact N. Qed.

(** The node before a position. *)
Lemma dseg_pv nx pv l1 c l2 p q : dseg nx pv p (l1 ++ c :: l2) q ->
  pv c = List.last l1 p /\ nx c = hd q l2 /\ c <> 0.
Proof. intros H. apply dseg_app in H as (_ & H0 & H1 & H2 & _). auto. Qed.

(** Changing the successor of the segment only concerns its last node. *)
Lemma dseg_end nx pv nx' pv' l p q q' : dseg nx pv p l q -> NoDup l ->
  (forall x, In x l -> pv' x = pv x) ->
  (forall x, In x l -> x <> List.last l 0 -> nx' x = nx x) ->
  (l <> [] -> nx' (List.last l 0) = q') ->
  dseg nx' pv' p l q'.
Proof.
  revert p. induction l as [|a l IH]; intros p H N E1 E2 E3; [exact I|].
  destruct H as (H0 & H1 & H2 & H3). inversion N; subst. cbn [dseg].
  destruct l as [|b l].
  - cbn in *. rewrite E1 by auto. rewrite E3 by congruence. auto.
  - assert (L : List.last (a :: b :: l) 0 = List.last (b :: l) 0) by reflexivity.
    split; [exact H0|]. split; [rewrite E1; auto; left; reflexivity|].
    split.
    + rewrite E2; [exact H2|left; reflexivity|]. rewrite L. intros E.
      assert (In a (b :: l)) by (rewrite E; apply last_In; congruence). contradiction.
    + apply IH; auto.
      * intros x Hx. apply E1. right; exact Hx.
      * intros x Hx Hn. apply E2; [right; exact Hx|]. rewrite L. exact Hn.
      * intros _. rewrite <- L. apply E3. congruence.
Qed.

(** Changing the predecessor of the segment only concerns its first node. *)
Lemma dseg_begin nx pv nx' pv' l p q p' : dseg nx pv p l q -> NoDup l ->
  (forall x, In x l -> nx' x = nx x) ->
  (forall x, In x l -> x <> hd 0 l -> pv' x = pv x) ->
  (l <> [] -> pv' (hd 0 l) = p') ->
  dseg nx' pv' p' l q.
Proof.
  destruct l as [|a l]; intros H N E1 E2 E3; [exact I|].
  destruct H as (H0 & H1 & H2 & H3). inversion N; subst. cbn [dseg hd] in *.
  split; [exact H0|]. split; [apply E3; congruence|]. split; [rewrite E1; auto; left; reflexivity|].
  apply (dseg_ext nx pv); [exact H3|]. intros x Hx. split; [apply E1; right; exact Hx|].
  apply E2; [right; exact Hx|]. intros ->. contradiction.
Qed.

(** Insertion between [l1] and [l2]. *)
Lemma dseg_insert nx pv nx' pv' l1 l2 c : dseg nx pv 0 (l1 ++ l2) 0 -> NoDup (l1 ++ l2) ->
  ~ In c (l1 ++ l2) -> c <> 0 ->
  pv' c = List.last l1 0 -> nx' c = hd 0 l2 ->
  (l1 <> [] -> nx' (List.last l1 0) = c) -> (l2 <> [] -> pv' (hd 0 l2) = c) ->
  (forall x, In x (l1 ++ l2) -> (l1 = [] \/ x <> List.last l1 0) -> nx' x = nx x) ->
  (forall x, In x (l1 ++ l2) -> (l2 = [] \/ x <> hd 0 l2) -> pv' x = pv x) ->
  dseg nx' pv' 0 (l1 ++ c :: l2) 0.
Proof.
  intros H N NI C0 P1 P2 P3 P4 E1 E2. apply dseg_app in H as (H1 & H2).
  assert (N1 : NoDup l1 /\ NoDup l2 /\ forall x, In x l1 -> ~ In x l2).
  { clear - N. induction l1 as [|a l1 IH]; cbn [app] in *.
    - split; [constructor|]. split; [exact N|]. intros x Hx. destruct Hx.
    - inversion N; subst. destruct (IH H2) as (A & B & C). split; [|split; [exact B|]].
      + constructor; auto. intros Hx. apply H1. apply in_or_app. left; exact Hx.
      + intros x [->|Hx]; [|apply C; exact Hx]. intros Hx. apply H1. apply in_or_app. right; exact Hx. }
  destruct N1 as (N1 & N2 & DJ).
  apply dseg_app. split.
  - cbn [hd]. eapply dseg_end; eauto.
    + intros x Hx. apply E2; [apply in_or_app; auto|]. destruct l2 as [|b l2]; [left; reflexivity|right].
      cbn [hd]. intros ->. apply (DJ b Hx). left; reflexivity.
    + intros x Hx Hn. apply E1; [apply in_or_app; auto|]. right; exact Hn.
  - cbn [dseg]. split; [exact C0|]. split; [exact P1|]. split; [exact P2|].
    eapply dseg_begin; eauto.
    + intros x Hx. apply E1; [apply in_or_app; auto|]. destruct l1 as [|b l1]; [left; reflexivity|right].
      intros ->. apply (DJ (List.last (b :: l1) 0)); [apply last_In; congruence|exact Hx].
    + intros x Hx Hn. apply E2; [apply in_or_app; auto|]. right; exact Hn.
Qed.

(** Removal of [c] between [l1] and [l2]. *)
Lemma dseg_remove nx pv nx' pv' l1 l2 c : dseg nx pv 0 (l1 ++ c :: l2) 0 -> NoDup (l1 ++ c :: l2) ->
  (l1 <> [] -> nx' (List.last l1 0) = hd 0 l2) -> (l2 <> [] -> pv' (hd 0 l2) = List.last l1 0) ->
  (forall x, In x (l1 ++ l2) -> (l1 = [] \/ x <> List.last l1 0) -> nx' x = nx x) ->
  (forall x, In x (l1 ++ l2) -> (l2 = [] \/ x <> hd 0 l2) -> pv' x = pv x) ->
  dseg nx' pv' 0 (l1 ++ l2) 0.
Proof.
  intros H N P3 P4 E1 E2. apply nodup_del in N as (N & NI).
  apply dseg_app in H as (H1 & H2). cbn [hd dseg] in *. destruct H2 as (C0 & _ & _ & H2).
  assert (N1 : NoDup l1 /\ NoDup l2 /\ forall x, In x l1 -> ~ In x l2).
  { clear - N. induction l1 as [|a l1 IH]; cbn [app] in *.
    - split; [constructor|]. split; [exact N|]. intros x Hx. destruct Hx.
    - inversion N; subst. destruct (IH H2) as (A & B & C). split; [|split; [exact B|]].
      + constructor; auto. intros Hx. apply H1. apply in_or_app. left; exact Hx.
      + intros x [->|Hx]; [|apply C; exact Hx]. intros Hx. apply H1. apply in_or_app. right; exact Hx. }
  destruct N1 as (N1 & N2 & DJ).
  apply dseg_app. split.
  - eapply dseg_end; eauto.
    + intros x Hx. apply E2; [apply in_or_app; auto|]. destruct l2 as [|b l2]; [left; reflexivity|right].
      cbn [hd]. intros ->. apply (DJ b Hx). left; reflexivity.
    + intros x Hx Hn. apply E1; [apply in_or_app; auto|]. right; exact Hn.
  - eapply dseg_begin; eauto.
    + intros x Hx. apply E1; [apply in_or_app; auto|]. destruct l1 as [|b l1]; [left; reflexivity|right].
      intros ->. apply (DJ (List.last (b :: l1) 0)); [apply last_In; congruence|exact Hx].
    + intros x Hx Hn. apply E2; [apply in_or_app; auto|]. right; exact Hn.
Qed.

(** Walking a list. *)
Fixpoint walk (fuel : nat) (nx : Z -> Z) (p : Z) : option (list Z) :=
  if p =? 0 then Some [] else
  match fuel with
  | O => None
  | S fuel => match walk fuel nx (nx p) with Some l => Some (p :: l) | None => None end
  end.

Lemma walk_forward nx pv l : forall p fuel, dseg nx pv p l 0 -> (length l <= fuel)%nat ->
  walk fuel nx (hd 0 l) = Some l.
Proof.
  induction l as [|a l IH]; intros p fuel H F.
  - destruct fuel; reflexivity.
  - destruct H as (H0 & H1 & H2 & H3). destruct fuel as [|fuel]; [cbn in F; lia|].
    cbn [hd walk]. replace (a =? 0) with false by lia. rewrite H2. rewrite (IH a fuel H3) by (cbn in F; lia). reflexivity.
Qed.

Lemma walk_backward nx pv l : forall q fuel, dseg nx pv 0 l q -> (length l <= fuel)%nat ->
  walk fuel pv (List.last l 0) = Some (rev l).
Proof.
  induction l as [|a l IH] using rev_ind; intros q fuel H F.
  - destruct fuel; reflexivity.
  - rewrite app_length in F. cbn in F. apply dseg_app in H as (H1 & H2). cbn [hd dseg] in *.
    destruct H2 as (A0 & A1 & _). rewrite last_app_cons. cbn [List.last].
    destruct fuel as [|fuel]; [lia|]. cbn [walk]. replace (a =? 0) with false by lia.
    rewrite A1. rewrite (IH a fuel H1) by lia. rewrite rev_app_distr. reflexivity.
Qed.
