(** Proofs about the list of users of a data object and the memory of its frames. *)
From Verif Require Import CInt CIntFacts DataModel.
Ltac Zify.zify_post_hook ::= idtac.

(** States found by walking from [p] along [dt_next]. *)
Fixpoint chain (st : Z -> dstate) (p : Z) (l : list Z) : Prop :=
  match l with
  | [] => p = 0
  | x :: l => p = x /\ x <> 0 /\ chain st (dt_next (st x)) l
  end.

Lemma chain_ext st st' l : forall p, (forall x, In x l -> dt_next (st x) = dt_next (st' x)) -> chain st p l -> chain st' p l.
Proof.
  induction l as [|x l IH]; intros p H C; cbn [chain] in *; [exact C|].
  destruct C as (-> & Hx & C). split; [reflexivity|]. split; [exact Hx|].
  rewrite <- (H x) by now left. apply IH; [|exact C]. intros y Hy. apply H. now right.
Qed.

Lemma chain_app st l1 l2 : forall p, chain st p (l1 ++ l2) <->
  match l1 with
  | [] => chain st p l2
  | _ => exists q, chain st q l2 /\ hd 0 l1 = p /\ dt_next (st (last l1 0)) = q /\
         (forall x, In x l1 -> x <> 0) /\ (forall a b r, l1 = a ++ b :: r -> r <> [] -> dt_next (st b) = hd 0 r)
  end.
Proof.
  induction l1 as [|x l1 IH]; intros p; [cbn; tauto|].
  cbn [app chain hd]. rewrite IH. destruct l1 as [|y l1].
  - cbn [last]. split.
    + intros (-> & Hx & C). exists (dt_next (st x)). repeat split; auto.
      * intros z [<-|[]]; auto.
      * intros a b r E Hr. destruct a as [|a0 a]; cbn in E; [injection E as <- <-; congruence|]. destruct a; discriminate.
    + intros (q & C & <- & <- & Hx & _). split; [reflexivity|]. split; [apply Hx; now left|exact C].
  - split.
    + intros (-> & Hx & q & C & H1 & H2 & H3 & H4). exists q. split; [exact C|]. split; [reflexivity|].
      split; [exact H2|]. split.
      * intros z [<-|Hz]; [exact Hx|now apply H3].
      * intros a b r E Hr. destruct a as [|a0 a].
        -- cbn in E. injection E as <- <-. symmetry. exact H1.
        -- cbn in E. injection E as <- E. eapply H4; eauto.
    + intros (q & C & <- & H2 & H3 & H4). split; [reflexivity|]. split; [apply H3; now left|].
      exists q. split; [exact C|]. split; [symmetry; apply (H4 [] x (y :: l1)); [reflexivity|discriminate]|].
      split; [exact H2|]. split.
      * intros z Hz. apply H3. now right.
      * intros a b r E Hr. apply (H4 (x :: a) b r); [cbn; now rewrite E|exact Hr].
Qed.

(** Direct split: a chain of [l1 ++ l2] in terms of a segment. *)
Fixpoint seg (st : Z -> dstate) (p : Z) (l : list Z) (q : Z) : Prop :=
  match l with
  | [] => p = q
  | x :: l => p = x /\ x <> 0 /\ seg st (dt_next (st x)) l q
  end.
Lemma chain_seg st l1 l2 : forall p, chain st p (l1 ++ l2) <-> exists q, seg st p l1 q /\ chain st q l2.
Proof.
  induction l1 as [|x l1 IH]; intros p; cbn [app chain seg].
  - split; [intros H; exists p; auto|]. intros (q & -> & H). exact H.
  - rewrite IH. split.
    + intros (-> & Hx & q & H1 & H2). exists q. auto.
    + intros (q & (-> & Hx & H1) & H2). split; [reflexivity|]. split; [exact Hx|]. exists q. auto.
Qed.
Lemma seg_ext st st' l : forall p q, (forall x, In x l -> dt_next (st x) = dt_next (st' x)) -> seg st p l q -> seg st' p l q.
Proof.
  induction l as [|x l IH]; intros p q H C; cbn [seg] in *; [exact C|].
  destruct C as (-> & Hx & C). split; [reflexivity|]. split; [exact Hx|].
  rewrite <- (H x) by now left. apply IH; [|exact C]. intros y Hy. apply H. now right.
Qed.
Lemma seg_app st l1 l2 : forall p q, seg st p (l1 ++ l2) q <-> exists r, seg st p l1 r /\ seg st r l2 q.
Proof.
  induction l1 as [|x l1 IH]; intros p q; cbn [app seg].
  - split; [intros H; exists p; auto|]. intros (r & -> & H). exact H.
  - rewrite IH. split.
    + intros (-> & Hx & r & H1 & H2). exists r. auto.
    + intros (r & (-> & Hx & H1) & H2). split; [reflexivity|]. split; [exact Hx|]. exists r. auto.
Qed.

Lemma last_app_one {A} (l : list A) x d : last (l ++ [x]) d = x.
Proof. induction l as [|y l IH]; [reflexivity|]. cbn [app last]. rewrite IH. destruct (l ++ [x]) eqn:E; [destruct l; discriminate|reflexivity]. Qed.

Lemma last_state_ok st dd l : forall fuel p, chain st p l -> (length l < fuel)%nat ->
  last_state fuel (mk_dheap st dd) p = Ok (last l 0).
Proof.
  induction l as [|x l IH]; intros fuel p C F; (destruct fuel as [|fuel]; [cbn in F; lia|]); cbn [last_state chain] in *.
  - subst. reflexivity.
  - destruct C as (-> & Hx & C). destruct (Z.eqb_spec x 0); [contradiction|]. cbn [dh_state].
    destruct l as [|y l].
    + cbn [chain] in C. rewrite C. reflexivity.
    + assert (dt_next (st x) = y /\ y <> 0) as [Hn Hy] by (cbn [chain] in C; tauto).
      rewrite Hn. destruct (Z.eqb_spec y 0); [contradiction|]. rewrite Hn in C.
      rewrite (IH fuel y C) by (cbn [length] in *; lia). reflexivity.
Qed.

Lemma prev_state_ok st dd s l2 : forall l1 fuel p pv, chain st p (l1 ++ s :: l2) -> ~ In s l1 -> (length l1 < fuel)%nat ->
  prev_state fuel (mk_dheap st dd) s p pv = Ok (last l1 pv).
Proof.
  induction l1 as [|x l1 IH]; intros fuel p pv C N F; (destruct fuel as [|fuel]; [cbn in F; lia|]);
    cbn [app chain prev_state] in *.
  - destruct C as (-> & Hs & _). destruct (Z.eqb_spec s 0); [contradiction|]. rewrite Z.eqb_refl. reflexivity.
  - destruct C as (-> & Hx & C). destruct (Z.eqb_spec x 0); [contradiction|].
    destruct (Z.eqb_spec x s) as [->|]; [exfalso; apply N; now left|]. cbn [dh_state].
    rewrite (IH fuel _ x C); [|intros H; apply N; now right|cbn in F; lia].
    f_equal. clear. revert x pv. induction l1 as [|y l1 IH]; intros; [reflexivity|].
    cbn [last]. destruct l1; [reflexivity|]. exact (IH x pv) || (rewrite (IH x pv); reflexivity).
Qed.

Lemma fupd_eq {A} (f : Z -> A) p a : fupd f p a p = a.
Proof. unfold fupd. now rewrite Z.eqb_refl. Qed.
Lemma fupd_neq {A} (f : Z -> A) p q a : q <> p -> fupd f p a q = f q.
Proof. intros H. unfold fupd. destruct (Z.eqb_spec q p); congruence. Qed.

(** The heap represents the lists [users]. *)
Definition users_rep (h : dheap) (users : Z -> list Z) : Prop :=
  forall d, d <> 0 ->
    chain (dh_state h) (do_list (dh_data h d)) (users d) /\ NoDup (users d) /\
    (forall s, s <> 0 -> (In s (users d) <-> dt_data (dh_state h s) = d)) /\ do_locked (dh_data h d) = false.

Lemma chain_nonzero st l : forall p, chain st p l -> ~ In 0 l.
Proof. induction l as [|x l IH]; intros p C H; [exact H|]. destruct C as (-> & Hx & C). destruct H as [H|H]; [auto|]. exact (IH _ C H). Qed.

Lemma remove_split s (l1 l2 : list Z) : ~ In s l1 -> ~ In s l2 -> remove Z.eq_dec s (l1 ++ s :: l2) = l1 ++ l2.
Proof.
  intros H1 H2. rewrite remove_app. cbn [remove]. destruct (Z.eq_dec s s); [|congruence].
  rewrite !notin_remove by assumption. reflexivity.
Qed.

(** Removing a state from the list it is in. *)
Lemma remove_ok fuel h users s : users_rep h users -> s <> 0 -> (forall d, (length (users d) < fuel)%nat) ->
  exists h', BKDataStateRemoveFromData fuel h s = Ok h' /\
    users_rep h' (fun d => remove Z.eq_dec s (users d)) /\ dt_data (dh_state h' s) = 0.
Proof.
  intros R Hs F. unfold BKDataStateRemoveFromData.
  destruct (Z.eqb_spec (dt_data (dh_state h s)) 0) as [E|E]; cbn [negb andb].
  - exists h. split; [reflexivity|]. split; [|exact E].
    intros d Hd. destruct (R d Hd) as (C & N & I & L).
    assert (~ In s (users d)) by (rewrite I by assumption; congruence).
    rewrite notin_remove by assumption. auto.
  - remember (dt_data (dh_state h s)) as d0 eqn:Ed0.
    destruct (R d0 E) as (C & N & I & L). rewrite L. cbn [negb].
    assert (In s (users d0)) as Hin by (apply I; [assumption|congruence]).
    destruct (in_split _ _ Hin) as (l1 & l2 & El).
    assert (~ In s l1 /\ ~ In s l2) as [N1 N2].
    { rewrite El in N. apply NoDup_remove_2 in N. rewrite in_app_iff in N. tauto. }
    rewrite El in C. destruct h as [st dd]. cbn [dh_state dh_data] in *.
    rewrite (prev_state_ok st dd s l2 l1 fuel _ 0 C N1).
    2:{ specialize (F d0). rewrite El, app_length in F. cbn in F. lia. }
    cbn [bind].
    apply chain_seg in C. destruct C as (q & C1 & C2). cbn [chain] in C2. destruct C2 as (-> & _ & C2).
    (* the other lists do not contain s *)
    assert (OTH : forall d, d <> 0 -> d <> d0 -> ~ In s (users d)).
    { intros d Hd Hne H. destruct (R d Hd) as (_ & _ & I' & _). apply I' in H; [|assumption]. cbn [dh_state] in *. congruence. }
    assert (DIS : forall d x, d <> 0 -> d <> d0 -> In x (users d) -> ~ In x (users d0)).
    { intros d x Hd Hne Hx H. destruct (R d Hd) as (C' & _ & I' & _).
      assert (x <> 0) by (intros ->; exact (chain_nonzero _ _ _ C' Hx)).
      apply I' in Hx; [|assumption]. apply I in H; [|assumption]. cbn [dh_state] in *. congruence. }
    eexists. split; [reflexivity|]. split.
    2:{ cbn. now rewrite fupd_eq. }
    intros d Hd. destruct (R d Hd) as (C' & N' & I' & L'). cbn [dh_state dh_data] in *.
    destruct (Z.eq_dec d d0) as [->|Hne].
    + rewrite El, remove_split by assumption.
      assert (ND : NoDup (l1 ++ l2)) by (rewrite El in N'; apply NoDup_remove_1 in N'; exact N').
      split; [|split; [exact ND|split]].
      * destruct l1 as [|x l1].
        -- cbn [last]. change (negb (0 =? 0)) with false. cbn [seg] in C1. cbv iota. rewrite C1, Z.eqb_refl.
           unfold dset_state, dset_list, dset_data. cbn [dh_data dh_state do_list app]. rewrite fupd_eq. cbn [do_list].
           eapply chain_ext; [|exact C2]. intros x Hx. rewrite fupd_neq; [reflexivity|]. intros ->; contradiction.
        -- destruct (exists_last (l := x :: l1) ltac:(discriminate)) as (k & z & Ek). rewrite Ek in *.
           rewrite last_app_one. apply seg_app in C1. destruct C1 as (r & C1a & C1b). cbn [seg] in C1b. destruct C1b as (-> & Hz & Hzs).
           destruct (Z.eqb_spec z 0); [contradiction|]. cbn [negb].
           unfold dset_state, dset_next. cbn [dh_data dh_state do_list].
           rewrite <- app_assoc. apply chain_seg. exists z. split.
           ++ eapply seg_ext; [|exact C1a]. intros y Hy.
              rewrite fupd_neq by (intros ->; apply N1; rewrite in_app_iff; now left).
              unfold dset_state. cbn [dh_state]. rewrite fupd_neq; [reflexivity|].
              intros ->. rewrite <- app_assoc in ND. apply NoDup_remove_2 in ND. apply ND. rewrite in_app_iff. now left.
           ++ cbn [app chain]. split; [reflexivity|]. split; [assumption|].
              rewrite fupd_neq by (intros ->; apply N1; rewrite in_app_iff; right; now left).
              unfold dset_state. cbn [dh_state]. rewrite fupd_eq. cbn [dt_next].
              eapply chain_ext; [|exact C2]. intros y Hy.
              rewrite fupd_neq by (intros ->; contradiction).
              rewrite fupd_neq; [reflexivity|].
              intros ->. rewrite <- app_assoc in ND. apply NoDup_remove_2 in ND. apply ND. rewrite in_app_iff. now right.
      * intros t Ht. cbn [dh_state]. unfold dset_state at 1. cbn [dh_state].
        destruct (Z.eq_dec t s) as [->|Nt].
        -- rewrite fupd_eq. cbn [dt_data]. split; [|congruence]. rewrite in_app_iff. tauto.
        -- rewrite fupd_neq by assumption.
           assert (G : forall hh, dt_data (dh_state (if negb (last l1 0 =? 0) then dset_next hh (last l1 0) (dt_next (st s))
                       else if do_list (dd d0) =? s then dset_list hh d0 (dt_next (st s)) else hh) t) = dt_data (dh_state hh t)).
           { intros hh. destruct (negb (last l1 0 =? 0)).
             - unfold dset_next, dset_state. cbn [dh_state]. unfold fupd. destruct (Z.eqb_spec t (last l1 0)) as [->|]; reflexivity.
             - destruct (do_list (dd d0) =? s); reflexivity. }
           rewrite G. cbn [dh_state]. rewrite <- I' by assumption. rewrite El. rewrite !in_app_iff. cbn [In]. intuition congruence.
      * destruct (negb (last l1 0 =? 0)); [exact L'|]. destruct (do_list (dd d0) =? s); [|exact L'].
        unfold dset_list, dset_data, dset_state. cbn. rewrite fupd_eq. exact L'.
    + rewrite notin_remove by (apply OTH; assumption).
      assert (DD : forall hh, dh_data hh = dd -> dh_data (if negb (last l1 0 =? 0) then dset_next hh (last l1 0) (dt_next (st s))
                       else if do_list (dd d0) =? s then dset_list hh d0 (dt_next (st s)) else hh) d = dd d).
      { intros hh Hh. destruct (negb (last l1 0 =? 0)); [cbn; now rewrite Hh|]. destruct (do_list (dd d0) =? s); [|now rewrite Hh].
        unfold dset_list, dset_data. cbn. rewrite fupd_neq by assumption. now rewrite Hh. }
      unfold dset_state at 1 2 3 4. cbn [dh_data dh_state]. rewrite !DD by reflexivity.
      split; [|split; [exact N'|split; [|exact L']]].
      * eapply chain_ext; [|exact C']. intros x Hx.
        rewrite fupd_neq by (intros ->; exact (OTH d Hd Hne Hx)).
        destruct (Z.eqb_spec (last l1 0) 0); cbn [negb]; [destruct (do_list (dd d0) =? s); reflexivity|].
        unfold dset_next, dset_state. cbn [dh_state]. rewrite fupd_neq; [reflexivity|].
        intros ->. apply (DIS d _ Hd Hne Hx). rewrite El, in_app_iff. left.
        destruct l1 as [|y l1]; [exfalso; cbn [last] in *; congruence|].
        destruct (exists_last (l := y :: l1) ltac:(discriminate)) as (k & z & Ek). rewrite Ek, last_app_one, in_app_iff. right. now left.
      * intros t Ht. rewrite I' by assumption.
        destruct (Z.eq_dec t s) as [->|Nt].
        -- rewrite fupd_eq. cbn [dt_data]. split; congruence.
        -- rewrite fupd_neq by assumption.
           destruct (negb (last l1 0 =? 0)).
           ++ unfold dset_next, dset_state. cbn [dh_state]. unfold fupd. destruct (Z.eqb_spec t (last l1 0)) as [->|]; reflexivity.
           ++ destruct (do_list (dd d0) =? s); reflexivity.
Qed.

(** Appending a state which is in no list. *)
Lemma add_ok fuel h users s d : users_rep h users -> s <> 0 -> dt_data (dh_state h s) = 0 ->
  (forall d, (length (users d) < fuel)%nat) ->
  exists h', BKDataStateAddToData fuel h s d = Ok h' /\
    users_rep h' (fun e => users e ++ if e =? d then [s] else []).
Proof.
  intros R Hs H0 F. unfold BKDataStateAddToData. rewrite H0. change (0 =? 0) with true. cbn [andb].
  destruct (Z.eqb_spec d 0) as [->|Hd]; cbn [negb andb].
  - exists h. split; [reflexivity|]. intros e He. destruct (Z.eqb_spec e 0); [contradiction|]. rewrite app_nil_r. exact (R e He).
  - destruct (R d Hd) as (C & N & I & L). rewrite L. cbn [negb].
    destruct h as [st dd]. cbn [dh_state dh_data] in *.
    rewrite (last_state_ok st dd (users d) fuel _ C (F d)). cbn [bind].
    assert (NI : forall e, e <> 0 -> ~ In s (users e)).
    { intros e He H. destruct (R e He) as (_ & _ & I' & _). apply I' in H; [|assumption]. cbn [dh_state] in H. congruence. }
    eexists. split; [reflexivity|].
    set (h1 := if negb (last (users d) 0 =? 0) then dset_next (mk_dheap st dd) (last (users d) 0) s else dset_list (mk_dheap st dd) d s).
    assert (D1 : forall t, dt_data (dh_state h1 t) = dt_data (st t)).
    { intros t. unfold h1. destruct (negb (last (users d) 0 =? 0)); [|reflexivity].
      unfold dset_next, dset_state. cbn [dh_state]. unfold fupd. destruct (Z.eqb_spec t (last (users d) 0)) as [->|]; reflexivity. }
    assert (X1 : forall t, t <> last (users d) 0 -> dt_next (dh_state h1 t) = dt_next (st t)).
    { intros t Ht. unfold h1. destruct (negb (last (users d) 0 =? 0)); [|reflexivity].
      unfold dset_next, dset_state. cbn [dh_state]. rewrite fupd_neq by assumption. reflexivity. }
    assert (Y1 : forall e, e <> d -> dh_data h1 e = dd e).
    { intros e He. unfold h1. destruct (negb (last (users d) 0 =? 0)); [reflexivity|].
      unfold dset_list, dset_data. cbn. now rewrite fupd_neq. }
    intros e He. destruct (R e He) as (C' & N' & I' & L'). cbn [dh_state dh_data] in *.
    destruct (Z.eqb_spec e d) as [->|Hne].
    + split; [|split; [|split]].
      * apply chain_seg. exists s. unfold dset_state. cbn [dh_state dh_data]. split.
        -- destruct (users d) as [|x l] eqn:El.
           ++ unfold h1. cbn. now rewrite fupd_eq.
           ++ destruct (exists_last (l := x :: l) ltac:(discriminate)) as (k & z & Ek). rewrite Ek in *.
              unfold h1. rewrite ?El, ?Ek, last_app_one. apply chain_seg in C'. destruct C' as (q & S1 & S2).
              cbn [chain] in S2. destruct S2 as (-> & Hz & _). destruct (Z.eqb_spec z 0); [contradiction|]. cbn [negb].
              unfold dset_next, dset_state. cbn [dh_state dh_data]. apply seg_app. exists z. split.
              ** eapply seg_ext; [|exact S1]. intros y Hy.
                 assert (y <> s) by (intros ->; apply (NI d Hd); rewrite El, in_app_iff; now left).
                 assert (y <> z) by (intros ->; apply NoDup_remove_2 in N'; apply N'; rewrite app_nil_r; exact Hy).
                 rewrite !fupd_neq by assumption. reflexivity.
              ** cbn [seg]. split; [reflexivity|]. split; [assumption|].
                 assert (z <> s) by (intros ->; apply (NI d Hd); rewrite El, in_app_iff; right; now left).
                 rewrite fupd_neq by assumption. rewrite fupd_eq. reflexivity.
        -- cbn [chain]. split; [reflexivity|]. split; [assumption|]. rewrite fupd_eq. reflexivity.
      * apply NoDup_rev in N'. rewrite <- (rev_involutive (users d ++ [s])). apply NoDup_rev. rewrite rev_app_distr. cbn.
        constructor; [rewrite <- in_rev; now apply NI|exact N'].
      * intros t Ht. unfold dset_state. cbn [dh_state]. rewrite in_app_iff. cbn [In].
        destruct (Z.eq_dec t s) as [->|Nt]; [rewrite fupd_eq; cbn; tauto|].
        rewrite fupd_neq by assumption. rewrite D1. rewrite I' by assumption. intuition congruence.
      * unfold dset_state. cbn [dh_data]. unfold h1. destruct (negb (last (users d) 0 =? 0)); [exact L'|].
        unfold dset_list, dset_data. cbn. rewrite fupd_eq. exact L'.
    + rewrite app_nil_r. unfold dset_state. cbn [dh_data dh_state]. rewrite Y1 by assumption.
      split; [|split; [exact N'|split; [|exact L']]].
      * eapply chain_ext; [|exact C']. intros x Hx.
        rewrite fupd_neq by (intros ->; exact (NI e He Hx)). symmetry. apply X1.
        intros ->. assert (last (users d) 0 <> 0) by (intros E0; rewrite E0 in Hx; exact (chain_nonzero _ _ _ C' Hx)).
        apply I' in Hx; [|assumption].
        assert (In (last (users d) 0) (users d)) as Hx2.
        { destruct (users d) as [|y l]; [exfalso; cbn [last] in *; congruence|].
          destruct (exists_last (l := y :: l) ltac:(discriminate)) as (k & z & Ek). rewrite Ek, last_app_one, in_app_iff. right. now left. }
        apply I in Hx2; [|assumption]. congruence.
      * intros t Ht. rewrite I' by assumption.
        destruct (Z.eq_dec t s) as [->|Nt]; [rewrite fupd_eq; cbn; rewrite H0; split; congruence|].
        rewrite fupd_neq by assumption. rewrite D1. reflexivity.
Qed.

Lemma users_rep_ext h u u' : (forall d, d <> 0 -> u d = u' d) -> users_rep h u -> users_rep h u'.
Proof. intros E R d Hd. rewrite <- E by assumption. exact (R d Hd). Qed.

Lemma length_remove s (l : list Z) : (length (remove Z.eq_dec s l) <= length l)%nat.
Proof. induction l as [|x l IH]; [cbn; lia|]. cbn [remove length]. destruct (Z.eq_dec s x); cbn [length]; lia. Qed.

Lemma set_ok fuel h users s d : users_rep h users -> s <> 0 -> (forall d, (length (users d) < fuel)%nat) ->
  exists h', BKDataStateSetData fuel h s d = Ok h' /\
    users_rep h' (fun e => remove Z.eq_dec s (users e) ++ if e =? d then [s] else []).
Proof.
  intros R Hs F. unfold BKDataStateSetData.
  destruct (remove_ok fuel h users s R Hs F) as (h1 & E1 & R1 & Z1). rewrite E1. cbn [bind].
  apply add_ok; try assumption. intros e. specialize (F e). pose proof (length_remove s (users e)). lia.
Qed.

(** Walking over the users: [c] tells whether [prevState] is the last user kept,
    [started] whether one was kept. *)
Fixpoint okr (r : Z -> bool) (c started : bool) (l : list Z) : Prop :=
  match l with
  | [] => True
  | a :: l => if r a then c = true /\ okr r (negb started) started l else okr r true true l
  end.

Lemma reset_loop_ok d r dispose : forall rest fuel h kept prev c,
  let rj := fun x => r x || dispose in
  chain (dh_state h) (do_list (dh_data h d)) (kept ++ rest) -> NoDup (kept ++ rest) ->
  (c = true -> prev = last kept 0) -> okr rj c (match kept with [] => false | _ => true end) rest ->
  (length rest <= fuel)%nat ->
  exists h', reset_loop fuel h d r dispose (hd 0 rest) prev = Ok h' /\
    chain (dh_state h') (do_list (dh_data h' d)) (kept ++ filter (fun x => negb (rj x)) rest) /\
    (forall t, ~ In t (kept ++ rest) -> dh_state h' t = dh_state h t) /\
    (forall t, In t (kept ++ rest) -> dt_data (dh_state h' t) = if existsb (Z.eqb t) (filter rj rest) then 0 else dt_data (dh_state h t)) /\
    (forall e, e <> d -> dh_data h' e = dh_data h e) /\ do_locked (dh_data h' d) = do_locked (dh_data h d).
Proof.
  induction rest as [|s rest IH]; intros fuel h kept prev c rj C N P O F.
  - exists h. cbn [hd]. split; [destruct fuel; reflexivity|]. cbn [filter existsb].
    split; [exact C|]. repeat split; reflexivity || auto.
  - cbn [hd]. pose proof C as C0. apply chain_seg in C0. destruct C0 as (q & S1 & S2).
    cbn [chain] in S2. destruct S2 as (-> & Hs & S2).
    destruct fuel as [|fuel]; [cbn in F; lia|]. cbn [length] in F.
    cbn [reset_loop]. destruct (Z.eqb_spec s 0); [contradiction|].
    assert (NX : dt_next (dh_state h s) = hd 0 rest).
    { destruct rest as [|y rest]; cbn [chain hd] in *; tauto. }
    assert (NS : ~ In s (kept ++ rest)) by (apply NoDup_remove_2 in N; exact N).
    assert (N2 : NoDup (kept ++ rest)) by (apply NoDup_remove_1 in N; exact N).
    cbn [okr] in O. fold rj. change (r s || dispose) with (rj s).
    destruct (rj s) eqn:Er.
    + (* removed *)
      destruct O as [-> O]. specialize (P eq_refl). subst prev.
      set (h1 := if negb (last kept 0 =? 0) then dset_next h (last kept 0) (dt_next (dh_state h s)) else h).
      set (h2 := if do_list (dh_data h1 d) =? s then dset_list h1 d (dt_next (dh_state h1 s)) else h1).
      set (h3 := dset_state h2 s (mk_dstate 0 0)).
      assert (C3 : chain (dh_state h3) (do_list (dh_data h3 d)) (kept ++ rest) /\
                   (forall t, t <> s -> dt_data (dh_state h3 t) = dt_data (dh_state h t)) /\
                   (forall t, ~ In t (kept ++ s :: rest) -> dh_state h3 t = dh_state h t) /\
                   (forall e, e <> d -> dh_data h3 e = dh_data h e) /\ do_locked (dh_data h3 d) = do_locked (dh_data h d)).
      { destruct kept as [|x k0].
        - unfold h3, h2, h1. cbn [last]. change (negb (0 =? 0)) with false. cbv iota.
          cbn [seg] in S1. rewrite S1, Z.eqb_refl.
          unfold dset_state, dset_list, dset_data. cbn [dh_state dh_data app]. rewrite fupd_eq. cbn [do_list do_locked].
          split; [|split; [|split; [|split]]].
          + eapply chain_ext; [|exact S2]. intros y Hy. rewrite fupd_neq; [reflexivity|]. intros ->. apply NS. exact Hy.
          + intros t Ht. now rewrite fupd_neq.
          + intros t Ht. rewrite fupd_neq; [reflexivity|]. intros ->. apply Ht. now left.
          + intros e He. now rewrite fupd_neq.
          + reflexivity.
        - destruct (exists_last (l := x :: k0) ltac:(discriminate)) as (k & z & Ek).
          assert (x = hd 0 (k ++ [z])) as Hx by (rewrite <- Ek; reflexivity).
          rewrite Ek in *. unfold h3, h2, h1. rewrite ?Ek, last_app_one.
          apply seg_app in S1. destruct S1 as (q & S1a & S1b). cbn [seg] in S1b. destruct S1b as (-> & Hz & Hzs).
          destruct (Z.eqb_spec z 0); [contradiction|]. cbn [negb].
          assert (do_list (dh_data h d) <> s).
          { intros E. apply NS. rewrite <- app_assoc, in_app_iff. destruct k as [|y k]; cbn [seg] in S1a.
            - right. left. congruence.
            - destruct S1a as (E2 & _). left. left. congruence. }
          unfold dset_next. cbn [dh_data dset_state].
          change (dh_data (dset_state ?a ?b ?c)) with (dh_data a).
          destruct (Z.eqb_spec (do_list (dh_data h d)) s); [contradiction|].
          unfold dset_state. cbn [dh_state dh_data].
          assert (z <> s) by (intros ->; apply NS; rewrite in_app_iff, in_app_iff; left; right; now left).
          assert (NZ : ~ In z (k ++ rest)).
          { rewrite <- app_assoc in N2. apply NoDup_remove_2 in N2. exact N2. }
          split; [|split; [|split; [|split]]].
          + rewrite <- app_assoc. apply chain_seg. exists z. split.
            * eapply seg_ext; [|exact S1a]. intros y Hy.
              rewrite fupd_neq by (intros ->; apply NS; rewrite in_app_iff, in_app_iff; left; now left).
              rewrite fupd_neq; [reflexivity|]. intros ->. apply NZ. rewrite in_app_iff. now left.
            * cbn [app chain]. split; [reflexivity|]. split; [assumption|].
              rewrite fupd_neq by assumption. rewrite fupd_eq. cbn [dt_next].
              eapply chain_ext; [|exact S2]. intros y Hy.
              rewrite fupd_neq by (intros ->; apply NS; rewrite in_app_iff; now right).
              rewrite fupd_neq; [reflexivity|]. intros ->. apply NZ. rewrite in_app_iff. now right.
          + intros t Ht. rewrite fupd_neq by assumption. unfold fupd. destruct (Z.eqb_spec t z) as [->|]; reflexivity.
          + intros t Ht. rewrite !in_app_iff in Ht. cbn [In] in Ht. rewrite !fupd_neq; [reflexivity| |]; intros ->; tauto.
          + reflexivity.
          + reflexivity. }
      destruct C3 as (C3 & D3 & U3 & E3 & L3).
      rewrite NX.
      destruct (IH fuel h3 kept 0 (negb (match kept with [] => false | _ => true end)) C3 N2) as (h' & E' & C' & U' & D' & Y' & L').
      * destruct kept; [reflexivity|discriminate].
      * exact O.
      * lia.
      * exists h'. split; [exact E'|]. cbn [filter]. change ((fun x => r x || dispose) s) with (rj s) in *. rewrite Er. cbn [negb].
        split; [exact C'|]. split; [|split; [|split]].
        -- intros t Ht. rewrite U', U3; auto. intros H. apply Ht. rewrite in_app_iff in *. cbn. tauto.
        -- intros t Ht. cbn [existsb]. destruct (Z.eqb_spec t s) as [->|Nt]; cbn [orb].
           ++ rewrite U' by assumption. unfold h3, dset_state. cbn [dh_state]. now rewrite fupd_eq.
           ++ rewrite D', D3; auto. rewrite in_app_iff in *. cbn in Ht. destruct Ht as [?|[?|?]]; [now left|congruence|now right].
        -- intros e He. rewrite Y', E3; auto.
        -- rewrite L'. exact L3.
    + (* kept *)
      rewrite NX.
      destruct (IH fuel h (kept ++ [s]) s true) as (h' & E' & C' & U' & D' & Y' & L').
      * rewrite <- app_assoc. exact C.
      * rewrite <- app_assoc. exact N.
      * intros _. now rewrite last_app_one.
      * destruct kept; exact O.
      * lia.
      * exists h'. split; [exact E'|]. cbn [filter]. change ((fun x => r x || dispose) s) with (rj s) in *. rewrite Er. cbn [negb].
        rewrite <- app_assoc in *. cbn [app] in *. auto.
Qed.

Lemma reset_ok fuel h users d r dispose : users_rep h users -> d <> 0 -> (length (users d) <= fuel)%nat ->
  okr (fun x => r x || dispose) true false (users d) ->
  exists h', BKDataResetStates fuel h d r dispose = Ok h' /\
    users_rep h' (fun e => if e =? d then filter (fun x => negb (r x || dispose)) (users e) else users e).
Proof.
  intros R Hd F O. destruct (R d Hd) as (C & N & I & L).
  unfold BKDataResetStates.
  set (h0 := dset_data h d (mk_dobj (do_list (dh_data h d)) true)).
  assert (E0 : do_list (dh_data h0 d) = do_list (dh_data h d)) by (unfold h0, dset_data; cbn; now rewrite fupd_eq).
  assert (C0 : chain (dh_state h0) (do_list (dh_data h0 d)) ([] ++ users d)) by (rewrite E0; exact C).
  assert (H0 : do_list (dh_data h d) = hd 0 (users d)).
  { destruct (users d); cbn [chain hd] in *; tauto. }
  destruct (reset_loop_ok d r dispose (users d) fuel h0 [] 0 true C0 N ltac:(reflexivity) O F) as (h' & E' & C' & U' & D' & Y' & L').
  cbn [app] in *. rewrite E0, H0, E'. cbn [bind]. eexists. split; [reflexivity|].
  intros e He. unfold dset_data at 1 2 3 4. cbn [dh_state dh_data].
  destruct (R e He) as (Ce & Ne & Ie & Le).
  destruct (Z.eqb_spec e d) as [->|Hne].
  - rewrite fupd_eq. cbn [do_list do_locked]. split; [exact C'|]. split; [apply NoDup_filter; exact N|]. split; [|reflexivity].
    intros t Ht. rewrite filter_In. rewrite Ie by assumption.
    destruct (in_dec Z.eq_dec t (users d)) as [Hin|Hin].
    + rewrite D' by exact Hin. change (dh_state h0 t) with (dh_state h t).
      apply Ie in Hin as Hin2; [|assumption]. rewrite Hin2.
      destruct (existsb (Z.eqb t) (filter (fun x => r x || dispose) (users d))) eqn:Ex.
      * apply existsb_exists in Ex. destruct Ex as (y & Hy & Ey). apply Z.eqb_eq in Ey. subst y. apply filter_In in Hy. destruct Hy as [_ Hy].
        rewrite Hy. cbn. split; [intros [_ ?]; discriminate|congruence].
      * assert (r t || dispose = false) as ->.
        { destruct (r t || dispose) eqn:Er; [|reflexivity]. exfalso. rewrite <- not_true_iff_false in Ex. apply Ex.
          apply existsb_exists. exists t. split; [apply filter_In; auto|apply Z.eqb_refl]. }
        cbn. tauto.
    + rewrite U' by exact Hin. change (dh_state h0 t) with (dh_state h t).
      rewrite <- Ie by assumption. tauto.
  - rewrite fupd_neq by assumption. rewrite Y' by assumption.
    assert (Z0 : dh_data h0 e = dh_data h e) by (unfold h0, dset_data; cbn; now rewrite fupd_neq).
    rewrite Z0.
    assert (DIS : forall t, t <> 0 -> In t (users e) -> ~ In t (users d)).
    { intros t Ht H1 H2. apply Ie in H1; [|assumption]. apply I in H2; [|assumption]. congruence. }
    split; [|split; [exact Ne|split; [|exact Le]]].
    + eapply chain_ext; [|exact Ce]. intros x Hx.
      assert (x <> 0) by (intros ->; exact (chain_nonzero _ _ _ Ce Hx)).
      rewrite U' by (apply DIS; assumption). reflexivity.
    + intros t Ht. rewrite Ie by assumption.
      destruct (in_dec Z.eq_dec t (users d)) as [Hin|Hin].
      * rewrite D' by exact Hin. change (dh_state h0 t) with (dh_state h t).
        apply I in Hin; [|assumption].
        destruct (existsb _ _); split; congruence.
      * rewrite U' by exact Hin. reflexivity.
Qed.

(** The condition of [okr] in plain words. *)
Lemma okr_false r l : okr r true true l <-> (forall l1 x y l2, l = l1 ++ x :: y :: l2 -> r x && r y = false).
Proof.
  assert (G : forall l, (okr r true true l <-> (forall l1 x y l2, l = l1 ++ x :: y :: l2 -> r x && r y = false)) /\
                        (okr r false true l <-> (forall x l2, l = x :: l2 -> r x = false) /\ (forall l1 x y l2, l = l1 ++ x :: y :: l2 -> r x && r y = false))).
  { clear. induction l as [|a l [IH1 IH2]]; split.
    - cbn. split; [|auto]. intros _ l1 x y l2 E. destruct l1; discriminate.
    - cbn. split; [|auto]. intros _. split; [intros; discriminate|]. intros l1 x y l2 E. destruct l1; discriminate.
    - cbn [okr]. destruct (r a) eqn:Ea; cbn [negb].
      + rewrite IH2. split.
        * intros (_ & H1 & H2) l1 x y l2 E. destruct l1 as [|b l1]; cbn in E; injection E as <- E.
          -- rewrite (H1 y l2 E). now rewrite andb_false_r.
          -- eapply H2; eassumption.
        * intros H. split; [reflexivity|]. split.
          -- intros x l2 ->. specialize (H [] a x l2 eq_refl). rewrite Ea in H. exact H.
          -- intros l1 x y l2 ->. exact (H (a :: l1) x y l2 eq_refl).
      + rewrite IH1. split.
        * intros H l1 x y l2 E. destruct l1 as [|b l1]; cbn in E; injection E as <- E; [now rewrite Ea|]. eapply H; eassumption.
        * intros H l1 x y l2 ->. exact (H (a :: l1) x y l2 eq_refl).
    - cbn [okr]. destruct (r a) eqn:Ea; cbn [negb].
      + split; [intros [? _]; discriminate|]. intros [H _]. specialize (H a l eq_refl). congruence.
      + rewrite IH1. split.
        * intros H. split; [intros x l2 E; injection E as <- _; exact Ea|].
          intros l1 x y l2 E. destruct l1 as [|b l1]; cbn in E; injection E as <- E; [now rewrite Ea|]. eapply H; eassumption.
        * intros [_ H] l1 x y l2 ->. exact (H (a :: l1) x y l2 eq_refl). }
  exact (proj1 (G l)).
Qed.
Lemma okr_start r l : okr r true false l <->
  (forall l1 a l2 x y l3, l = l1 ++ a :: l2 ++ x :: y :: l3 -> r a = false -> r x && r y = false).
Proof.
  induction l as [|a l IH]; cbn [okr].
  - split; [|auto]. intros _ l1 a l2 x y l3 E. destruct l1; discriminate.
  - destruct (r a) eqn:Ea; cbn [negb].
    + rewrite IH. split.
      * intros (_ & H) l1 b l2 x y l3 E Hb. destruct l1 as [|c l1]; cbn in E; injection E as <- E; [congruence|]. eapply H; eassumption.
      * intros H. split; [reflexivity|]. intros l1 b l2 x y l3 ->. exact (H (a :: l1) b l2 x y l3 eq_refl).
    + rewrite okr_false. split.
      * intros H l1 b l2 x y l3 E Hb. destruct l1 as [|c l1]; cbn in E; injection E as <- E.
        -- eapply H; eassumption.
        -- subst l. apply (H (l1 ++ b :: l2) x y l3). rewrite <- app_assoc. reflexivity.
      * intros H l1 x y l2 ->. exact (H [] a l1 x y l2 eq_refl Ea).
Qed.
Lemma okr_all r l : (forall x, r x = true) -> okr r true false l.
Proof. intros H. induction l as [|a l IH]; cbn [okr]; [exact I|]. rewrite H. auto. Qed.

(** Histories. *)
Inductive uop : Type := USet (s d : Z) | UReset (d : Z) (reject : Z -> bool) | UDispose (d : Z).
Definition ustep (fuel : nat) (h : dheap) (o : uop) : res dheap :=
  match o with
  | USet s d => BKDataStateSetData fuel h s d
  | UReset d r => BKDataResetStates fuel h d r false
  | UDispose d => BKDataResetStates fuel h d (fun _ => false) true
  end.
Fixpoint urun (fuel : nat) (h : dheap) (ops : list uop) : res dheap :=
  match ops with
  | [] => Ok h
  | o :: ops => let* h := ustep fuel h o in urun fuel h ops
  end.
(** What the users are supposed to be. *)
Definition uspec (u : Z -> list Z) (o : uop) : Z -> list Z :=
  match o with
  | USet s d => fun e => remove Z.eq_dec s (u e) ++ if e =? d then [s] else []
  | UReset d r => fun e => if e =? d then filter (fun x => negb (r x)) (u e) else u e
  | UDispose d => fun e => if e =? d then [] else u e
  end.
(** Operations on existing objects; after a user that accepts, no two adjacent
    users reject. *)
Definition uvalid (u : Z -> list Z) (o : uop) : Prop :=
  match o with
  | USet s d => s <> 0
  | UReset d r => d <> 0 /\ forall l1 a l2 x y l3, u d = l1 ++ a :: l2 ++ x :: y :: l3 -> r a = false -> r x && r y = false
  | UDispose d => d <> 0
  end.
Fixpoint uvalid_all (u : Z -> list Z) (ops : list uop) : Prop :=
  match ops with
  | [] => True
  | o :: ops => uvalid u o /\ uvalid_all (uspec u o) ops
  end.
Definition uspec_all (u : Z -> list Z) (ops : list uop) : Z -> list Z := fold_left uspec ops u.

Lemma filter_length_le {A} (f : A -> bool) l : (length (filter f l) <= length l)%nat.
Proof. induction l as [|x l IH]; [cbn; lia|]. cbn. destruct (f x); cbn [length]; lia. Qed.

Lemma filter_none {A} (l : list A) (f : A -> bool) : (forall x, f x = false) -> filter f l = [].
Proof. intros H. induction l as [|x l IH]; [reflexivity|]. cbn. now rewrite H. Qed.

Lemma urun_ok : forall ops fuel h u n, users_rep h u -> uvalid_all u ops ->
  (forall d, (length (u d) <= n)%nat) -> (n + length ops < fuel)%nat ->
  exists h', urun fuel h ops = Ok h' /\ users_rep h' (uspec_all u ops).
Proof.
  induction ops as [|o ops IH]; intros fuel h u n R V B F.
  - exists h. auto.
  - cbn [uvalid_all urun length] in *. destruct V as [V1 V2].
    assert (exists h1, ustep fuel h o = Ok h1 /\ users_rep h1 (uspec u o)) as (h1 & E1 & R1).
    { destruct o as [s d|d r|d]; cbn [ustep uspec uvalid] in *.
      - apply set_ok; [exact R|exact V1|]. intros e. specialize (B e). lia.
      - destruct V1 as [Hd V1].
        destruct (reset_ok fuel h u d r false R Hd) as (h1 & E1 & R1).
        + specialize (B d). lia.
        + apply okr_start. intros l1 a l2 x y l3 E Ha. rewrite !orb_false_r in *. eapply V1; eassumption.
        + exists h1. split; [exact E1|]. eapply users_rep_ext; [|exact R1]. intros e He.
          cbn beta. destruct (Z.eqb_spec e d); [|reflexivity]. apply filter_ext. intros x. now rewrite orb_false_r.
      - destruct (reset_ok fuel h u d (fun _ => false) true R V1) as (h1 & E1 & R1).
        + specialize (B d). lia.
        + apply okr_all. reflexivity.
        + exists h1. split; [exact E1|]. eapply users_rep_ext; [|exact R1]. intros e He.
          cbn beta. destruct (Z.eqb_spec e d); [|reflexivity]. apply filter_none. reflexivity. }
    rewrite E1. cbn [bind].
    apply (IH fuel h1 (uspec u o) (S n) R1 V2); [|lia].
    intros e. specialize (B e). destruct o as [s d|d r|d]; cbn [uspec].
    + rewrite app_length. pose proof (length_remove s (u e)). destruct (e =? d); cbn [length]; lia.
    + destruct (e =? d); [pose proof (filter_length_le (fun x => negb (r x)) (u e))|]; lia.
    + destruct (e =? d); cbn [length]; lia.
Qed.

Definition dheap_init : dheap := mk_dheap (fun _ => mk_dstate 0 0) (fun _ => mk_dobj 0 false).
Lemma users_rep_init : users_rep dheap_init (fun _ => []).
Proof.
  intros d Hd. cbn. split; [reflexivity|]. split; [constructor|]. split; [|reflexivity].
  intros s Hs. split; [intros []|]. intros E. symmetry in E. contradiction.
Qed.
