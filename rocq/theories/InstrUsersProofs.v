(** Proofs about instruments and their tracks (C104, C105). *)
From Verif Require Import CIntFacts ContextSame DList InstrUsersModel InstrUsersSpec.
Ltac Zify.zify_post_hook ::= idtac.

(** ** Memory *)

Lemma fset_eq {A} (f : Z -> A) p a : fset f p a p = a.
Proof. unfold fset. rewrite Z.eqb_refl. reflexivity. Qed.
Lemma fset_ne {A} (f : Z -> A) p q a : q <> p -> fset f p a q = f q.
Proof. unfold fset. intros H. replace (q =? p) with false by lia. reflexivity. Qed.

Lemma without_in t x l : In x (without t l) <-> In x l /\ x <> t.
Proof. unfold without. rewrite filter_In. split; intros [H1 H2]; (split; [exact H1|lia]). Qed.
Lemma without_none t l : ~ In t l -> without t l = l.
Proof.
  induction l as [|a l IH]; intros H; [reflexivity|]. cbn [without filter]. replace (a =? t) with false by (cbn in H; lia). cbn [negb]. f_equal. apply IH. intros I. apply H. right. exact I.
Qed.
Lemma without_split t l1 l2 : ~ In t l1 -> ~ In t l2 -> without t (l1 ++ t :: l2) = l1 ++ l2.
Proof.
  intros H1 H2. unfold without. rewrite filter_app. cbn [filter]. rewrite Z.eqb_refl. cbn [negb]. f_equal; [apply (without_none t l1 H1)|apply (without_none t l2 H2)].
Qed.
Lemma NoDup_without t l : NoDup l -> NoDup (without t l).
Proof. apply NoDup_filter. Qed.
Lemma length_without t l : (length (without t l) <= length l)%nat.
Proof. induction l as [|a l IH]; [reflexivity|]. cbn [without filter]. destruct (a =? t); cbn [negb length]; fold (without t l); lia. Qed.

Definition nx (h : iheap) (t : Z) : Z := it_next (ih_track h t).
Definition pv (h : iheap) (t : Z) : Z := it_prev (ih_track h t).

(** The lists of states. *)
Record lrep (h : iheap) (tr ins : list Z) (u : Z -> list Z) : Prop := {
  lr_track : forall t, In t tr -> t <> 0 /\ it_alive (ih_track h t) = true;
  lr_instr : forall i, In i ins -> i <> 0 /\ ii_alive (ih_instr h i) = true;
  lr_list : forall i, In i ins -> ii_list (ih_instr h i) = hd 0 (u i) /\ dseg (nx h) (pv h) 0 (u i) 0 /\ NoDup (u i);
  lr_out : forall i, ~ In i ins -> u i = [];
  lr_user : forall i t, In t (u i) -> In t tr /\ it_instr (ih_track h t) = i;
  lr_uses : forall t, In t tr -> it_instr (ih_track h t) <> 0 -> In t (u (it_instr (ih_track h t))) }.

(** The rest of the memory. *)
Record rest (h h' : iheap) : Prop := {
  rs_live : ih_live h' = ih_live h;
  rs_fresh : ih_fresh h' = ih_fresh h;
  rs_instr : forall i, ii_num (ih_instr h' i) = ii_num (ih_instr h i) /\ ii_seqs (ih_instr h' i) = ii_seqs (ih_instr h i) /\ ii_alive (ih_instr h' i) = ii_alive (ih_instr h i);
  rs_track : forall t, it_flag (ih_track h' t) = it_flag (ih_track h t) /\ it_seqs (ih_track h' t) = it_seqs (ih_track h t) /\ it_alive (ih_track h' t) = it_alive (ih_track h t) }.

Lemma rest_refl h : rest h h.
Proof. split; auto. Qed.
Lemma rest_trans h1 h2 h3 : rest h1 h2 -> rest h2 h3 -> rest h1 h3.
Proof.
  intros [A1 A2 A3 A4] [B1 B2 B3 B4]. split; [congruence|congruence| |].
  - intros i. destruct (A3 i) as (? & ? & ?), (B3 i) as (? & ? & ?). repeat split; congruence.
  - intros i. destruct (A4 i) as (? & ? & ?), (B4 i) as (? & ? & ?). repeat split; congruence.
Qed.
Lemma rest_links h t i p n : rest h (set_track h t (with_links (ih_track h t) i p n)).
Proof. split; try reflexivity; [intros; auto|]. intros q. cbn [set_track ih_track]. unfold fset. destruct (Z.eqb_spec q t) as [->|]; auto. Qed.
Lemma rest_list h i l : rest h (set_instr h i (with_list (ih_instr h i) l)).
Proof. split; try reflexivity; [|intros; auto]. intros q. cbn [set_instr ih_instr]. unfold fset. destruct (Z.eqb_spec q i) as [->|]; auto. Qed.

Lemma track_of_ok h t : t <> 0 -> it_alive (ih_track h t) = true -> track_of h t = Ok (ih_track h t).
Proof. intros H1 H2. unfold track_of. replace (t =? 0) with false by lia. rewrite H2. reflexivity. Qed.
Lemma instr_of_ok h i : i <> 0 -> ii_alive (ih_instr h i) = true -> instr_of h i = Ok (ih_instr h i).
Proof. intros H1 H2. unfold instr_of. replace (i =? 0) with false by lia. rewrite H2. reflexivity. Qed.

Lemma lrep_ext h tr ins u u' : (forall i, u' i = u i) -> lrep h tr ins u -> lrep h tr ins u'.
Proof.
  intros E [L1 L2 L3 L4 L5 L6]. split; auto.
  - intros i. rewrite E. apply L3.
  - intros i. rewrite E. apply L4.
  - intros i t. rewrite E. apply L5.
  - intros t. rewrite E. apply L6.
Qed.

Lemma NoDup_mid_not (l1 l2 : list Z) t : NoDup (l1 ++ t :: l2) -> ~ In t l1 /\ ~ In t l2.
Proof. intros H. apply NoDup_remove_2 in H. split; intros I; apply H, in_or_app; auto. Qed.

(** ** Removing a state *)
Lemma remove_ok h tr ins u s : lrep h tr ins u -> In s tr ->
  exists h', BKInstrumentStateRemoveFromInstrument h s = Ok h' /\ lrep h' tr ins (leaves s u) /\ it_instr (ih_track h' s) = 0 /\ rest h h'.
Proof.
  intros L S. pose proof L as [L1 L2 L3 L4 L5 L6]. destruct (L1 s S) as (S0 & SA). unfold BKInstrumentStateRemoveFromInstrument. rewrite (track_of_ok h s S0 SA). cbn [bind].
  destruct (Z.eqb_spec (it_instr (ih_track h s)) 0) as [Z0|NZ].
  { exists h. split; [reflexivity|]. split; [|split; [exact Z0|apply rest_refl]]. apply (lrep_ext h tr ins u); [|exact L].
    intros i. apply without_none. intros I. destruct (L5 i s I) as (_ & E). rewrite Z0 in E. subst i. destruct (in_dec Z.eq_dec 0 ins) as [J|J]; [destruct (L2 0 J); congruence|]. rewrite (L4 0 J) in I. destruct I. }
  set (i := it_instr (ih_track h s)) in *. pose proof (L6 s S NZ) as U. fold i in U.
  assert (I : In i ins). { destruct (in_dec Z.eq_dec i ins) as [J|J]; [exact J|]. rewrite (L4 i J) in U. destruct U. }
  destruct (L2 i I) as (I0 & IA). rewrite (instr_of_ok h i I0 IA). cbn [bind].
  destruct (L3 i I) as (H1 & H2 & H3). apply in_split in U as (l1 & l2 & UE). rewrite UE in H1, H2, H3.
  destruct (dseg_pv _ _ _ _ _ _ _ H2) as (PV & NX & _). unfold pv, nx in PV, NX.
  destruct (NoDup_mid_not _ _ _ H3) as (N1 & N2).
  assert (MEM : forall x, In x (l1 ++ l2) -> x <> 0 /\ it_alive (ih_track h x) = true /\ In x tr /\ x <> s).
  { intros x X. assert (X' : In x (u i)) by (rewrite UE; apply in_app_iff in X; apply in_app_iff; cbn; tauto). destruct (L5 i x X') as (XT & _). destruct (L1 x XT) as (X0 & XA).
    repeat split; auto. intros ->. apply in_app_iff in X. tauto. }
  assert (DIS : forall x, In x l1 -> ~ In x l2). { clear - H3. intros x X1 X2. apply nodup_del in H3 as (H3 & _). apply in_split in X1 as (a & b & ->). rewrite <- app_assoc in H3. cbn in H3. apply NoDup_remove_2 in H3. apply H3. rewrite !in_app_iff. tauto. }
  (* the node before *)
  set (h1 := if it_prev (ih_track h s) =? 0 then h else set_track h (it_prev (ih_track h s)) (with_links (ih_track h (it_prev (ih_track h s))) (it_instr (ih_track h (it_prev (ih_track h s)))) (it_prev (ih_track h (it_prev (ih_track h s)))) (it_next (ih_track h s)))).
  assert (LAST : l1 <> [] -> In (List.last l1 0) l1) by (apply last_In).
  assert (E1 : (if it_prev (ih_track h s) =? 0 then Ok h else let* p := track_of h (it_prev (ih_track h s)) in Ok (set_track h (it_prev (ih_track h s)) (with_links p (it_instr p) (it_prev p) (it_next (ih_track h s))))) = Ok h1).
  { unfold h1. destruct (Z.eqb_spec (it_prev (ih_track h s)) 0) as [PZ|PZ]; [reflexivity|]. rewrite PV in PZ |- *. destruct l1 as [|a l1]; [cbn in PZ; congruence|].
    destruct (MEM (List.last (a :: l1) 0)) as (M1 & M2 & _); [apply in_app_iff; left; apply LAST; discriminate|]. rewrite (track_of_ok h _ M1 M2). reflexivity. }
  rewrite E1. cbn [bind]. clear E1.
  assert (T1 : ih_track h1 s = ih_track h s).
  { unfold h1. destruct (Z.eqb_spec (it_prev (ih_track h s)) 0) as [PZ|PZ]; [reflexivity|]. cbn [set_track ih_track]. apply fset_ne. intros E. rewrite PV in PZ, E. destruct l1 as [|a l1]; [cbn in PZ; congruence|]. apply N1. rewrite E. apply LAST. discriminate. }
  assert (R1 : rest h h1) by (unfold h1; destruct (it_prev (ih_track h s) =? 0); [apply rest_refl|apply rest_links]).
  assert (I1 : ih_instr h1 = ih_instr h) by (unfold h1; destruct (it_prev (ih_track h s) =? 0); reflexivity).
  assert (A1 : forall x, it_alive (ih_track h1 x) = it_alive (ih_track h x)) by (intros x; apply R1).
  assert (J1 : forall x, it_instr (ih_track h1 x) = it_instr (ih_track h x) /\ pv h1 x = pv h x).
  { intros x. unfold h1, pv. destruct (it_prev (ih_track h s) =? 0); [auto|]. cbn [set_track ih_track]. unfold fset. destruct (Z.eqb_spec x (it_prev (ih_track h s))) as [->|]; auto. }
  assert (X1 : forall x, (l1 = [] \/ x <> List.last l1 0) -> nx h1 x = nx h x).
  { intros x X. unfold h1, nx. destruct (Z.eqb_spec (it_prev (ih_track h s)) 0) as [PZ|PZ]; [reflexivity|]. cbn [set_track ih_track]. rewrite PV in PZ |- *.
    destruct X as [->|X]; [cbn in PZ; congruence|]. rewrite fset_ne by exact X. reflexivity. }
  assert (Y1 : l1 <> [] -> nx h1 (List.last l1 0) = hd 0 l2).
  { intros NE. unfold h1, nx. destruct (MEM (List.last l1 0)) as (M1 & _); [apply in_app_iff; left; apply LAST, NE|]. rewrite PV. replace (List.last l1 0 =? 0) with false by lia. cbn [set_track ih_track]. rewrite fset_eq. exact NX. }
  rewrite (track_of_ok h1 s S0) by (rewrite A1; exact SA). cbn [bind]. rewrite T1.
  (* the node after *)
  set (n := it_next (ih_track h s)) in *.
  set (h2 := if n =? 0 then h1 else set_track h1 n (with_links (ih_track h1 n) (it_instr (ih_track h1 n)) (it_prev (ih_track h s)) (it_next (ih_track h1 n)))).
  assert (E2 : (if n =? 0 then Ok h1 else let* k := track_of h1 n in Ok (set_track h1 n (with_links k (it_instr k) (it_prev (ih_track h s)) (it_next k)))) = Ok h2).
  { unfold h2. destruct (Z.eqb_spec n 0) as [PZ|PZ]; [reflexivity|]. rewrite NX in PZ |- *. destruct l2 as [|a l2]; [cbn in PZ; congruence|]. cbn [hd].
    destruct (MEM a) as (M1 & M2 & _); [apply in_app_iff; right; left; reflexivity|]. rewrite (track_of_ok h1 _ M1) by (rewrite A1; exact M2). reflexivity. }
  rewrite E2. cbn [bind]. clear E2.
  assert (T2 : ih_track h2 s = ih_track h s).
  { unfold h2. destruct (Z.eqb_spec n 0) as [PZ|PZ]; [exact T1|]. cbn [set_track ih_track]. rewrite fset_ne; [exact T1|]. intros E. rewrite NX in PZ, E. destruct l2 as [|a l2]; [cbn in PZ; congruence|]. apply N2. rewrite E. left. reflexivity. }
  assert (R2 : rest h1 h2) by (unfold h2; destruct (n =? 0); [apply rest_refl|apply rest_links]).
  assert (I2 : ih_instr h2 = ih_instr h) by (unfold h2; destruct (n =? 0); exact I1).
  assert (A2 : forall x, it_alive (ih_track h2 x) = it_alive (ih_track h x)) by (intros x; rewrite <- A1; apply R2).
  assert (J2 : forall x, it_instr (ih_track h2 x) = it_instr (ih_track h x) /\ nx h2 x = nx h1 x).
  { intros x. destruct (J1 x) as (K & _). unfold h2, nx. destruct (n =? 0); [auto|]. cbn [set_track ih_track]. unfold fset. destruct (Z.eqb_spec x n) as [->|]; auto. }
  assert (X2 : forall x, (l2 = [] \/ x <> hd 0 l2) -> pv h2 x = pv h x).
  { intros x X. destruct (J1 x) as (_ & K). unfold h2. destruct (Z.eqb_spec n 0) as [PZ|PZ]; [exact K|]. unfold pv in *. cbn [set_track ih_track]. rewrite NX in PZ |- *.
    destruct X as [->|X]; [cbn in PZ; congruence|]. rewrite fset_ne by exact X. exact K. }
  assert (Y2 : l2 <> [] -> pv h2 (hd 0 l2) = List.last l1 0).
  { intros NE. destruct l2 as [|a l2]; [congruence|]. unfold h2, pv. cbn [hd] in *. destruct (MEM a) as (M1 & _); [apply in_app_iff; right; left; reflexivity|]. rewrite NX. replace (a =? 0) with false by lia. cbn [set_track ih_track]. rewrite fset_eq. exact PV. }
  rewrite (instr_of_ok h2 i I0) by (rewrite I2; exact IA). cbn [bind]. rewrite (track_of_ok h2 s S0) by (rewrite A2; exact SA). cbn [bind]. rewrite T2, I2. fold n.
  (* the head *)
  set (h3 := if ii_list (ih_instr h i) =? s then set_instr h2 i (with_list (ih_instr h i) n) else h2).
  assert (R3 : rest h2 h3). { unfold h3. destruct (_ =? s); [|apply rest_refl]. rewrite <- I2. apply rest_list. }
  assert (TR3 : ih_track h3 = ih_track h2) by (unfold h3; destruct (_ =? s); reflexivity).
  eexists. split; [reflexivity|]. replace (ih_track h s) with (ih_track h3 s) by (rewrite TR3; exact T2).
  split; [|split; [cbn [set_track ih_track]; rewrite fset_eq; reflexivity|eapply rest_trans; [|apply rest_links]; eapply rest_trans; [|exact R3]; eapply rest_trans; [exact R1|exact R2]]].
  set (h4 := set_track h3 s (with_links (ih_track h3 s) 0 0 0)).
  assert (T4 : forall x, x <> s -> ih_track h4 x = ih_track h2 x) by (intros x X; unfold h4; cbn [set_track ih_track]; rewrite fset_ne by exact X; rewrite TR3; reflexivity).
  assert (A4 : forall x, it_alive (ih_track h4 x) = it_alive (ih_track h x)).
  { intros x. destruct (Z.eq_dec x s) as [->|X]; [|rewrite T4 by exact X; apply A2]. unfold h4. cbn [set_track ih_track]. rewrite fset_eq. cbn [with_links it_alive]. rewrite TR3. apply A2. }
  assert (IN4 : forall j, ih_instr h4 j = ih_instr h j \/ (j = i /\ ii_list (ih_instr h i) = s /\ ih_instr h4 j = with_list (ih_instr h i) n)).
  { intros j. unfold h4. cbn [set_track ih_instr]. unfold h3. destruct (Z.eqb_spec (ii_list (ih_instr h i)) s) as [HS|HS]; [|rewrite I2; auto]. cbn [set_instr ih_instr]. unfold fset.
    destruct (Z.eqb_spec j i) as [->|]; [right; auto|left; rewrite I2; reflexivity]. }
  split.
  - intros t T. destruct (L1 t T). rewrite A4. auto.
  - intros j J. destruct (L2 j J). split; [assumption|]. destruct (IN4 j) as [->|(-> & _ & ->)]; assumption.
  - intros j J. destruct (Z.eq_dec j i) as [->|JI].
    + unfold leaves. rewrite UE. rewrite (without_split s l1 l2 N1 N2). split; [|split].
      * destruct l1 as [|a l1]; cbn [app hd] in H1 |- *.
        -- destruct (IN4 i) as [E|(_ & _ & ->)]; [|exact NX]. exfalso. unfold h4, h3 in E. rewrite H1, Z.eqb_refl in E. cbn [set_track set_instr ih_instr] in E. rewrite fset_eq in E.
           assert (X : ii_list (with_list (ih_instr h i) n) = ii_list (ih_instr h i)) by (rewrite E; reflexivity). cbn [with_list ii_list] in X. rewrite NX, H1 in X. destruct l2 as [|b l2]; cbn [hd] in X; [congruence|]. apply N2. rewrite X. left. reflexivity.
        -- destruct (IN4 i) as [->|(_ & E & _)]; [exact H1|]. exfalso. rewrite E in H1. apply N1. rewrite H1. left. reflexivity.
      * apply (dseg_remove (nx h) (pv h) (nx h4) (pv h4) l1 l2 s H2 H3).
        -- intros NE. unfold nx. rewrite T4 by (apply (MEM (List.last l1 0)), in_app_iff; left; apply LAST, NE). destruct (J2 (List.last l1 0)) as (_ & K). unfold nx in K at 1. rewrite K. apply Y1, NE.
        -- intros NE. unfold pv. rewrite T4; [apply (Y2 NE)|]. apply (MEM (hd 0 l2)), in_app_iff. right. destruct l2; [congruence|left; reflexivity].
        -- intros x X1' X2'. unfold nx. rewrite T4 by (apply (MEM x), X1'). destruct (J2 x) as (_ & K). unfold nx in K at 1. rewrite K. apply X1, X2'.
        -- intros x X1' X2'. unfold pv. rewrite T4 by (apply (MEM x), X1'). apply X2, X2'.
      * apply nodup_del in H3. apply H3.
    + assert (NI : ~ In s (u j)). { intros X. destruct (L5 j s X) as (_ & X'). fold i in X'. congruence. }
      unfold leaves. rewrite (without_none s (u j) NI). destruct (L3 j J) as (K1 & K2 & K3). destruct (IN4 j) as [->|(X & _)]; [|congruence]. split; [exact K1|]. split; [|exact K3].
      apply (dseg_ext (nx h) (pv h)); [exact K2|]. intros x X. destruct (L5 j x X) as (XT & XI).
      assert (XS : x <> s) by (intros ->; contradiction).
      assert (XL : ~ In x (l1 ++ l2)). { intros XX. assert (In x (u i)) as Q by (rewrite UE; apply in_app_iff in XX; apply in_app_iff; cbn; tauto). destruct (L5 i x Q). congruence. }
      unfold nx, pv. rewrite T4 by exact XS. destruct (J2 x) as (_ & K). unfold nx in K at 1. rewrite K. split.
      * apply X1. destruct l1 as [|a l1]; [left; reflexivity|right]. intros ->. apply XL, in_app_iff. left. apply LAST. discriminate.
      * apply X2. destruct l2 as [|a l2]; [left; reflexivity|right]. intros ->. apply XL, in_app_iff. right. left. reflexivity.
  - intros j J. unfold leaves. rewrite (L4 j J). reflexivity.
  - intros j t T. apply without_in in T as (T & TS). destruct (L5 j t T) as (T1' & T2'). split; [exact T1'|]. rewrite T4 by exact TS. destruct (J2 t) as (K & _). congruence.
  - intros t T TI. destruct (Z.eq_dec t s) as [->|TS]; [unfold h4 in TI; cbn [set_track ih_track] in TI; rewrite fset_eq in TI; cbn in TI; congruence|].
    rewrite T4 in TI |- * by exact TS. destruct (J2 t) as (K & _). rewrite K in TI |- *. apply without_in. split; [apply L6; assumption|exact TS].
Qed.

(** ** Calls through sequences *)
Lemma touch_all_ok h l : (forall p, In p l -> p <> 0 -> ih_live h p = true) -> touch_all h l = Ok tt.
Proof.
  induction l as [|p l IH]; intros H; [reflexivity|]. cbn [touch_all]. unfold touch. destruct (Z.eqb_spec p 0) as [->|N].
  - cbn [bind]. apply IH. intros q Q. apply H. right. exact Q.
  - rewrite (H p (or_introl eq_refl) N). cbn [bind]. apply IH. intros q Q. apply H. right. exact Q.
Qed.
Lemma touch_set_ok h n : forall ls l, (forall p, In p l -> p <> 0 -> ih_live h p = true) -> touch_set h n ls l = Ok tt.
Proof.
  induction n as [|n IH]; intros ls l H; [reflexivity|]. destruct ls as [|a ls]; [reflexivity|]. destruct l as [|p l]; [reflexivity|]. cbn [touch_set].
  assert (T : touch h p = Ok tt). { unfold touch. destruct (Z.eqb_spec p 0) as [->|N]; [reflexivity|]. rewrite (H p (or_introl eq_refl) N). reflexivity. }
  rewrite T. replace (if a =? 0 then Ok tt else Ok tt) with (@Ok unit tt) by (destruct (a =? 0); reflexivity). cbn [bind]. apply IH. intros q Q. apply H. right. exact Q.
Qed.

(** The sequences of a track may be called. *)
Definition callable (h : iheap) (t : Z) : Prop := forall p, In p (it_seqs (ih_track h t)) -> p <> 0 -> ih_live h p = true.

Lemma callable_rest h h' t : rest h h' -> callable h t -> callable h' t.
Proof. intros [R1 R2 R3 R4] C p. destruct (R4 t) as (_ & E & _). rewrite E, R1. apply C. Qed.

Lemma defaults_ok h t : t <> 0 -> it_alive (ih_track h t) = true -> callable h t -> state_defaults h t = Ok tt.
Proof. intros T0 TA C. unfold state_defaults. rewrite (track_of_ok h t T0 TA). cbn [bind]. apply touch_all_ok, C. Qed.
Lemma phase_ok h t : t <> 0 -> it_alive (ih_track h t) = true -> callable h t -> (it_instr (ih_track h t) <> 0 -> ii_alive (ih_instr h (it_instr (ih_track h t))) = true) -> state_phase h t = Ok tt.
Proof.
  intros T0 TA C A. unfold state_phase. rewrite (track_of_ok h t T0 TA). cbn [bind]. destruct (Z.eqb_spec (it_instr (ih_track h t)) 0) as [E|E]; [reflexivity|].
  rewrite (instr_of_ok h _ E (A E)). cbn [bind]. apply touch_set_ok, C.
Qed.

(** ** Adding a state *)
Lemma add_ok h tr ins u s i : lrep h tr ins u -> In s tr -> it_instr (ih_track h s) = 0 -> In i ins -> callable h s ->
  exists h', BKInstrumentStateAddToInstrument h s i = Ok h' /\ lrep h' tr ins (joins s i u) /\ it_instr (ih_track h' s) = i /\ rest h h'.
Proof.
  intros L S SI I C. pose proof L as [L1 L2 L3 L4 L5 L6]. destruct (L1 s S) as (S0 & SA). destruct (L2 i I) as (I0 & IA). destruct (L3 i I) as (H1 & H2 & H3).
  unfold BKInstrumentStateAddToInstrument. rewrite (track_of_ok h s S0 SA). cbn [bind]. rewrite SI, Z.eqb_refl. replace (i =? 0) with false by lia. cbn [andb negb].
  rewrite (instr_of_ok h i I0 IA). cbn [bind].
  assert (NU : forall j, ~ In s (u j)).
  { intros j X. destruct (L5 j s X) as (_ & E). rewrite SI in E. subst j. destruct (in_dec Z.eq_dec 0 ins) as [J|J]; [destruct (L2 0 J); congruence|]. rewrite (L4 0 J) in X. destruct X. }
  assert (LV : forall j, leaves s u j = u j) by (intros j; apply without_none, NU).
  set (n := ii_list (ih_instr h i)) in *. set (h1 := set_track h s (with_links (ih_track h s) i 0 n)).
  assert (NS : n <> s). { rewrite H1. intros E. destruct (u i) as [|a l] eqn:UI; [cbn in E; congruence|]. apply (NU i). rewrite UI, <- E. left. reflexivity. }
  assert (R1 : rest h h1) by apply rest_links.
  assert (MN : n <> 0 -> In n (u i)). { rewrite H1. destruct (u i); [cbn; congruence|left; reflexivity]. }
  set (h2 := if n =? 0 then h1 else set_track h1 n (with_links (ih_track h1 n) (it_instr (ih_track h1 n)) s (it_next (ih_track h1 n)))).
  assert (E2 : (if n =? 0 then Ok h1 else let* k := track_of h1 n in Ok (set_track h1 n (with_links k (it_instr k) s (it_next k)))) = Ok h2).
  { unfold h2. destruct (Z.eqb_spec n 0) as [PZ|PZ]; [reflexivity|]. destruct (L5 i n (MN PZ)) as (T & _). destruct (L1 n T) as (T0 & TA).
    rewrite (track_of_ok h1 n T0); [reflexivity|]. unfold h1. cbn [set_track ih_track]. rewrite fset_ne by exact NS. exact TA. }
  rewrite E2. cbn [bind]. clear E2.
  assert (R2 : rest h h2) by (eapply rest_trans; [exact R1|]; unfold h2; destruct (n =? 0); [apply rest_refl|apply rest_links]).
  assert (I2 : ih_instr h2 = ih_instr h) by (unfold h2; destruct (n =? 0); reflexivity).
  set (h3 := set_instr h2 i (with_list (ih_instr h i) s)).
  assert (R3 : rest h h3) by (eapply rest_trans; [exact R2|]; unfold h3; rewrite <- I2; apply rest_list).
  assert (A3 : forall x, it_alive (ih_track h3 x) = it_alive (ih_track h x)) by (intros x; apply R3).
  rewrite (defaults_ok h3 s S0); [|rewrite A3; exact SA|apply (callable_rest h h3 s R3 C)]. cbn [bind].
  exists h3. split; [reflexivity|].
  assert (TS : ih_track h3 s = with_links (ih_track h s) i 0 n).
  { unfold h3. cbn [set_instr ih_track]. unfold h2. destruct (n =? 0); [|cbn [set_track ih_track]; rewrite fset_ne by congruence]; unfold h1; cbn [set_track ih_track]; apply fset_eq. }
  assert (TX : forall x, x <> s -> nx h3 x = nx h x /\ it_instr (ih_track h3 x) = it_instr (ih_track h x) /\ (x <> n -> pv h3 x = pv h x) /\ (x = n -> n <> 0 -> pv h3 x = s)).
  { intros x X. unfold nx, pv, h3. cbn [set_instr ih_track]. unfold h2. destruct (Z.eqb_spec n 0) as [NZ|NZ].
    - unfold h1. cbn [set_track ih_track]. rewrite fset_ne by exact X. repeat split; auto. congruence.
    - cbn [set_track ih_track]. destruct (Z.eq_dec x n) as [->|XN].
      + rewrite !fset_eq. cbn [with_links it_next it_instr it_prev]. unfold h1. cbn [set_track ih_track]. rewrite fset_ne by exact X. repeat split; auto. congruence.
      + rewrite !(fset_ne _ n x) by exact XN. unfold h1. cbn [set_track ih_track]. rewrite fset_ne by exact X. repeat split; auto. congruence. }
  split; [|split; [rewrite TS; reflexivity|exact R3]]. split.
  - intros t T. destruct (L1 t T). rewrite A3. auto.
  - intros j J. destruct (L2 j J). split; [assumption|]. destruct R3 as [_ _ R3 _]. destruct (R3 j) as (_ & _ & ->). assumption.
  - intros j J. unfold joins. replace (i =? 0) with false by lia. cbn [negb]. rewrite andb_true_r, LV. destruct (Z.eqb_spec j i) as [->|JI].
    + split; [unfold h3; cbn [set_instr ih_instr]; rewrite fset_eq; reflexivity|]. split; [|constructor; [apply NU|exact H3]].
      apply (dseg_insert (nx h) (pv h) (nx h3) (pv h3) [] (u i) s H2 H3 (NU i) S0).
      * unfold pv. rewrite TS. reflexivity.
      * unfold nx. rewrite TS. exact H1.
      * congruence.
      * intros NE. rewrite <- H1. destruct (u i) as [|a l] eqn:UI; [congruence|]. cbn [hd] in H1. apply TX; [exact NS|reflexivity|]. rewrite H1. apply H2.
      * intros x X _. cbn [app] in X. apply TX. intros ->. exact (NU i X).
      * intros x X XH. cbn [app] in X. apply TX; [intros ->; exact (NU i X)|]. destruct XH as [E|XH]; [rewrite E in X; destruct X|]. rewrite H1. exact XH.
    + destruct (L3 j J) as (K1 & K2 & K3). split; [unfold h3; cbn [set_instr ih_instr]; rewrite fset_ne by exact JI; rewrite I2; exact K1|]. split; [|exact K3].
      apply (dseg_ext (nx h) (pv h)); [exact K2|]. intros x X. assert (XS : x <> s) by (intros ->; exact (NU j X)). destruct (TX x XS) as (Q1 & _ & Q2 & _). split; [exact Q1|]. apply Q2.
      intros ->. assert (n <> 0) as NZ by (destruct (L5 j n X) as (T & _); apply (L1 n T)). destruct (L5 i n (MN NZ)), (L5 j n X). congruence.
  - intros j J. unfold joins. replace (j =? i) with false by (assert (j <> i) by congruence; lia). cbn [andb]. rewrite LV. apply L4, J.
  - intros j t T. unfold joins in T. rewrite LV in T. replace (i =? 0) with false in T by lia. cbn [negb] in T. rewrite andb_true_r in T.
    assert (K : (t = s /\ j = i) \/ In t (u j)) by (destruct (Z.eqb_spec j i) as [->|]; [destruct T as [<-|T]; auto|auto]).
    destruct K as [(-> & ->)|K]; [split; [exact S|rewrite TS; reflexivity]|]. destruct (L5 j t K) as (K1 & K2). split; [exact K1|].
    assert (XS : t <> s) by (intros ->; exact (NU j K)). destruct (TX t XS) as (_ & -> & _). exact K2.
  - intros t T TI. unfold joins. rewrite LV. replace (i =? 0) with false by lia. cbn [negb]. rewrite andb_true_r.
    destruct (Z.eq_dec t s) as [->|XS]; [rewrite TS; cbn [with_links it_instr]; rewrite Z.eqb_refl; left; reflexivity|].
    destruct (TX t XS) as (_ & E & _). rewrite E in TI |- *. destruct (_ =? i); [right|]; apply L6; assumption.
Qed.

Lemma lrep_zero h tr ins u : lrep h tr ins u -> ~ In 0 ins /\ u 0 = [].
Proof. intros [L1 L2 L3 L4 L5 L6]. assert (~ In 0 ins) by (intros X; destruct (L2 0 X); congruence). auto. Qed.

Lemma lrep_instr h h' tr ins u u' t : lrep h tr ins u -> lrep h' tr ins u' -> In t tr -> (forall j, In t (u' j) <-> In t (u j)) -> it_instr (ih_track h' t) = it_instr (ih_track h t).
Proof.
  intros L L' T E. destruct (lrep_zero _ _ _ _ L) as (_ & Z0). destruct (Z.eq_dec (it_instr (ih_track h t)) 0) as [Z1|N1].
  - destruct (Z.eq_dec (it_instr (ih_track h' t)) 0) as [Z2|N2]; [congruence|]. pose proof (lr_uses _ _ _ _ L' t T N2) as X. apply E in X. destruct (lr_user _ _ _ _ L _ _ X). congruence.
  - pose proof (lr_uses _ _ _ _ L t T N1) as X. apply E in X. apply (lr_user _ _ _ _ L' _ _ X).
Qed.

(** Everything but the lists of states and the sequences of one track. *)
Record rest1 (s : Z) (h h' : iheap) : Prop := {
  r1_live : ih_live h' = ih_live h;
  r1_fresh : ih_fresh h' = ih_fresh h;
  r1_instr : forall i, ii_num (ih_instr h' i) = ii_num (ih_instr h i) /\ ii_seqs (ih_instr h' i) = ii_seqs (ih_instr h i) /\ ii_alive (ih_instr h' i) = ii_alive (ih_instr h i);
  r1_alive : forall t, it_alive (ih_track h' t) = it_alive (ih_track h t);
  r1_track : forall t, t <> s -> it_flag (ih_track h' t) = it_flag (ih_track h t) /\ it_seqs (ih_track h' t) = it_seqs (ih_track h t) }.

Lemma rest_rest1 s h h' : rest h h' -> rest1 s h h'.
Proof. intros [R1 R2 R3 R4]. split; auto; intros t; [apply R4|]. intros _. destruct (R4 t) as (? & ? & _). auto. Qed.
Lemma rest1_trans s h1 h2 h3 : rest1 s h1 h2 -> rest1 s h2 h3 -> rest1 s h1 h3.
Proof.
  intros [A1 A2 A3 A4 A5] [B1 B2 B3 B4 B5]. split; [congruence|congruence| | |].
  - intros i. destruct (A3 i) as (? & ? & ?), (B3 i) as (? & ? & ?). repeat split; congruence.
  - intros t. congruence.
  - intros t T. destruct (A5 t T), (B5 t T). split; congruence.
Qed.

(** Changing other fields of a track keeps the lists. *)
Lemma lrep_track h tr ins u s x : lrep h tr ins u -> it_alive x = true -> it_instr x = it_instr (ih_track h s) -> it_prev x = it_prev (ih_track h s) -> it_next x = it_next (ih_track h s) ->
  lrep (set_track h s x) tr ins u.
Proof.
  intros [L1 L2 L3 L4 L5 L6] A I P N.
  assert (E : forall t, it_instr (ih_track (set_track h s x) t) = it_instr (ih_track h t) /\ pv (set_track h s x) t = pv h t /\ nx (set_track h s x) t = nx h t).
  { intros t. unfold pv, nx. cbn [set_track ih_track]. unfold fset. destruct (Z.eqb_spec t s) as [->|]; auto. }
  split; auto.
  - intros t T. destruct (L1 t T) as (T0 & TA). split; [exact T0|]. cbn [set_track ih_track]. unfold fset. destruct (t =? s); assumption.
  - intros i J. destruct (L3 i J) as (K1 & K2 & K3). split; [exact K1|]. split; [|exact K3]. apply (dseg_ext (nx h) (pv h)); [exact K2|]. intros t _. destruct (E t) as (_ & ? & ?). auto.
  - intros i t T. destruct (L5 i t T). split; [assumption|]. destruct (E t) as (-> & _). assumption.
  - intros t T. destruct (E t) as (-> & _). apply L6, T.
Qed.

Definition none : list Z := [0; 0; 0; 0].
Definition seqs_of (h : iheap) (i : Z) : list Z := if i =? 0 then none else ii_seqs (ih_instr h i).

Lemma joins_other s i u j t : t <> s -> (In t (joins s i u j) <-> In t (u j)).
Proof.
  intros N. unfold joins, leaves. destruct ((j =? i) && negb (i =? 0)); cbn [In]; rewrite without_in; intuition congruence.
Qed.
Lemma leaves_joins s u j : joins s 0 u j = leaves s u j.
Proof. unfold joins. rewrite Z.eqb_refl, andb_false_r. reflexivity. Qed.

Lemma without_twice t l : without t (without t l) = without t l.
Proof. apply without_none. rewrite without_in. tauto. Qed.

Lemma state_set_ok h tr ins u s i : lrep h tr ins u -> In s tr -> (i = 0 \/ In i ins) -> callable h s -> (forall p, In p (seqs_of h i) -> p <> 0 -> ih_live h p = true) ->
  exists h', BKInstrumentStateSetInstrument h s i = Ok h' /\ lrep h' tr ins (joins s i u) /\ it_instr (ih_track h' s) = i /\ it_seqs (ih_track h' s) = seqs_of h i /\
    it_flag (ih_track h' s) = it_flag (ih_track h s) /\ rest1 s h h'.
Proof.
  intros L S I C V. destruct (lr_track _ _ _ _ L s S) as (S0 & SA). unfold BKInstrumentStateSetInstrument.
  destruct (remove_ok h tr ins u s L S) as (h1 & -> & L1 & I1 & R1). cbn [bind].
  assert (A1 : it_alive (ih_track h1 s) = true) by (destruct R1 as [_ _ _ R]; destruct (R s) as (_ & _ & ->); exact SA).
  destruct (Z.eqb_spec i 0) as [->|NZ].
  - unfold BKInstrumentStateAddToInstrument. rewrite (track_of_ok h1 s S0 A1). cbn [bind]. change (0 =? 0) with true. cbn [negb]. rewrite andb_false_r. cbn [bind]. rewrite (track_of_ok h1 s S0 A1). cbn [bind].
    eexists. split; [reflexivity|]. split; [|split; [|split; [|split]]].
    + apply (lrep_ext _ tr ins (leaves s u)); [apply leaves_joins|]. apply lrep_track; auto.
    + cbn [set_track ih_track]. rewrite fset_eq. exact I1.
    + cbn [set_track ih_track]. rewrite fset_eq. reflexivity.
    + cbn [set_track ih_track]. rewrite fset_eq. cbn [with_seqs it_flag]. apply R1.
    + eapply rest1_trans; [apply rest_rest1; exact R1|]. split; try reflexivity; [auto| |].
      * intros t. cbn [set_track ih_track]. unfold fset. destruct (Z.eqb_spec t s) as [->|]; reflexivity.
      * intros t T. cbn [set_track ih_track]. rewrite fset_ne by exact T. auto.
  - destruct I as [I|I]; [congruence|]. destruct (add_ok h1 tr ins (leaves s u) s i L1 S I1 I (callable_rest _ _ _ R1 C)) as (h2 & -> & L2 & I2 & R2). cbn [bind].
    pose proof (rest_trans _ _ _ R1 R2) as R. assert (A2 : it_alive (ih_track h2 s) = true) by (destruct R as [_ _ _ R]; destruct (R s) as (_ & _ & ->); exact SA).
    rewrite (track_of_ok h2 s S0 A2). cbn [bind]. rewrite I2. destruct (lr_instr _ _ _ _ L2 i I) as (J0 & JA). rewrite (instr_of_ok h2 i J0 JA). cbn [bind].
    assert (SQ : ii_seqs (ih_instr h2 i) = seqs_of h i) by (unfold seqs_of; replace (i =? 0) with false by lia; apply R).
    rewrite SQ. set (h3 := set_track h2 s (with_seqs (ih_track h2 s) (seqs_of h i))).
    assert (T3 : ih_track h3 s = with_seqs (ih_track h2 s) (seqs_of h i)) by (unfold h3; cbn [set_track ih_track]; apply fset_eq).
    assert (C3 : callable h3 s). { intros p. rewrite T3. cbn [with_seqs it_seqs]. change (ih_live h3) with (ih_live h2). rewrite (rs_live _ _ R). apply V. }
    assert (A3 : it_alive (ih_track h3 s) = true) by (rewrite T3; exact A2).
    rewrite (defaults_ok h3 s S0 A3 C3). cbn [bind]. rewrite (phase_ok h3 s S0 A3 C3); [|intros _; rewrite T3; cbn [with_seqs it_instr]; rewrite I2; exact JA]. cbn [bind].
    exists h3. split; [reflexivity|]. split; [|split; [|split; [|split]]].
    + apply (lrep_ext _ tr ins (joins s i (leaves s u))). { intros j. unfold joins, leaves. rewrite without_twice. reflexivity. } apply lrep_track; auto.
    + rewrite T3. exact I2.
    + rewrite T3. reflexivity.
    + rewrite T3. cbn [with_seqs it_flag]. apply R.
    + eapply rest1_trans; [apply rest_rest1; exact R|]. split; try reflexivity; [auto| |].
      * intros t. unfold h3. cbn [set_track ih_track]. unfold fset. destruct (Z.eqb_spec t s) as [->|]; reflexivity.
      * intros t T. unfold h3. cbn [set_track ih_track]. rewrite fset_ne by exact T. auto.
Qed.

(** ** The invariant *)
Record irep (h : iheap) (w : world) : Prop := {
  ir_lists : lrep h (w_tracks w) (w_instrs w) (w_users w);
  ir_seqs : forall t, In t (w_tracks w) -> it_seqs (ih_track h t) = seqs_of h (it_instr (ih_track h t));
  ir_flag : forall t, In t (w_tracks w) -> it_flag (ih_track h t) = negb (it_instr (ih_track h t) =? 0);
  ir_four : forall i, In i (w_instrs w) -> length (ii_seqs (ih_instr h i)) = 4%nat;
  ir_live : forall p, ih_live h p = true <-> p <> 0 /\ exists i, In i (w_instrs w) /\ In p (ii_seqs (ih_instr h i));
  ir_once : forall i j m n, In i (w_instrs w) -> In j (w_instrs w) -> nth m (ii_seqs (ih_instr h i)) 0 = nth n (ii_seqs (ih_instr h j)) 0 ->
    nth m (ii_seqs (ih_instr h i)) 0 <> 0 -> i = j /\ m = n;
  ir_fresh : 0 < ih_fresh h /\ forall p, ih_live h p = true -> p < ih_fresh h }.

Lemma none_in p : In p none -> p = 0.
Proof. cbn. intuition. Qed.

Lemma irep_instr h w t : irep h w -> In t (w_tracks w) -> it_instr (ih_track h t) <> 0 -> In (it_instr (ih_track h t)) (w_instrs w).
Proof.
  intros R T N. pose proof (lr_uses _ _ _ _ (ir_lists _ _ R) t T N) as U. destruct (in_dec Z.eq_dec (it_instr (ih_track h t)) (w_instrs w)) as [J|J]; [exact J|].
  rewrite (lr_out _ _ _ _ (ir_lists _ _ R) _ J) in U. destruct U.
Qed.
Lemma irep_seqs_live h w i : irep h w -> i = 0 \/ In i (w_instrs w) -> forall p, In p (seqs_of h i) -> p <> 0 -> ih_live h p = true.
Proof.
  intros R I p P N. unfold seqs_of in P. destruct (Z.eqb_spec i 0) as [->|NZ]; [apply none_in in P; congruence|]. apply (ir_live _ _ R). split; [exact N|]. exists i. destruct I; [congruence|auto].
Qed.
Lemma irep_callable h w t : irep h w -> In t (w_tracks w) -> callable h t.
Proof.
  intros R T p P N. rewrite (ir_seqs _ _ R t T) in P. apply (irep_seqs_live h w (it_instr (ih_track h t)) R); [|exact P|exact N].
  destruct (Z.eq_dec (it_instr (ih_track h t)) 0) as [E|E]; [auto|right; apply irep_instr; assumption].
Qed.

(** After a state is set, everything but the flag of the track is right. *)
Lemma irep_after h w s i h' b : irep h w -> In s (w_tracks w) -> lrep h' (w_tracks w) (w_instrs w) (joins s i (w_users w)) -> it_instr (ih_track h' s) = i ->
  it_seqs (ih_track h' s) = seqs_of h i -> rest1 s h h' -> b = negb (i =? 0) ->
  irep (set_track h' s (with_flag (ih_track h' s) b)) (mk_world (w_tracks w) (w_instrs w) (joins s i (w_users w))).
Proof.
  intros R S L SI SQ R1 ->. set (h2 := set_track h' s (with_flag (ih_track h' s) (negb (i =? 0)))).
  assert (L2 : lrep h2 (w_tracks w) (w_instrs w) (joins s i (w_users w))). { apply lrep_track; auto. cbn. apply (lr_track _ _ _ _ L s S). }
  assert (T2 : ih_track h2 s = with_flag (ih_track h' s) (negb (i =? 0))) by (unfold h2; cbn [set_track ih_track]; apply fset_eq).
  assert (X2 : forall t, t <> s -> ih_track h2 t = ih_track h' t) by (intros t T; unfold h2; cbn [set_track ih_track]; apply fset_ne, T).
  assert (SE : forall j, ii_seqs (ih_instr h2 j) = ii_seqs (ih_instr h j)) by (intros j; apply (r1_instr _ _ _ R1 j)).
  assert (SO : forall j, seqs_of h2 j = seqs_of h j) by (intros j; unfold seqs_of; rewrite SE; reflexivity).
  assert (IE : forall t, In t (w_tracks w) -> t <> s -> it_instr (ih_track h2 t) = it_instr (ih_track h t)).
  { intros t T N. apply (lrep_instr _ _ _ _ _ _ t (ir_lists _ _ R) L2 T). intros j. apply joins_other, N. }
  split; cbn [w_tracks w_instrs w_users].
  - exact L2.
  - intros t T. rewrite SO. destruct (Z.eq_dec t s) as [->|N]; [rewrite T2; cbn [with_flag it_seqs it_instr]; congruence|].
    rewrite (IE t T N), (X2 t N). destruct (r1_track _ _ _ R1 t N) as (_ & ->). apply (ir_seqs _ _ R t T).
  - intros t T. destruct (Z.eq_dec t s) as [->|N]; [rewrite T2; cbn [with_flag it_flag it_instr]; congruence|].
    rewrite (IE t T N), (X2 t N). destruct (r1_track _ _ _ R1 t N) as (-> & _). apply (ir_flag _ _ R t T).
  - intros j J. rewrite SE. apply (ir_four _ _ R j J).
  - intros p. change (ih_live h2) with (ih_live h'). rewrite (r1_live _ _ _ R1), (ir_live _ _ R p). split; intros (P & j & J & K); (split; [exact P|exists j; split; [exact J|]]); [rewrite SE|rewrite SE in K]; exact K.
  - intros j k m n J K. rewrite !SE. apply (ir_once _ _ R j k m n J K).
  - change (ih_live h2) with (ih_live h'). change (ih_fresh h2) with (ih_fresh h'). rewrite (r1_live _ _ _ R1), (r1_fresh _ _ _ R1). apply (ir_fresh _ _ R).
Qed.

(** Two descriptions with the same users. *)
Lemma irep_ext h w u : irep h w -> (forall i, u i = w_users w i) -> irep h (mk_world (w_tracks w) (w_instrs w) u).
Proof. intros [R1 R2 R3 R4 R5 R6 R7] E. split; cbn [w_tracks w_instrs w_users]; auto. apply (lrep_ext _ _ _ (w_users w)); assumption. Qed.

Lemma flag_self h s : with_flag (ih_track h s) (it_flag (ih_track h s)) = ih_track h s.
Proof. destruct (ih_track h s); reflexivity. Qed.

Lemma uses_spec t i u : uses t i u = true <-> In t (u i).
Proof. unfold uses. rewrite existsb_exists. split; [intros (x & X & E); replace t with x by lia; exact X|intros X; exists t; split; [exact X|lia]]. Qed.

Lemma init_values_ok h w t : irep h w -> In t (w_tracks w) -> init_values h t = Ok tt.
Proof.
  intros R T. destruct (lr_track _ _ _ _ (ir_lists _ _ R) t T) as (T0 & TA). unfold init_values. rewrite (track_of_ok h t T0 TA). cbn [bind]. rewrite (ir_flag _ _ R t T).
  destruct (Z.eqb_spec (it_instr (ih_track h t)) 0) as [E|E]; [reflexivity|]. cbn [negb]. pose proof (irep_instr _ _ _ R T E) as I. destruct (lr_instr _ _ _ _ (ir_lists _ _ R) _ I) as (I0 & IA).
  rewrite (instr_of_ok h _ I0 IA). cbn [bind]. destruct (nth 3 (ii_seqs _) 0 =? 0); [reflexivity|]. unfold touch. destruct (Z.eqb_spec (nth 3 (it_seqs (ih_track h t)) 0) 0) as [|N]; [reflexivity|].
  rewrite (irep_callable _ _ _ R T); [reflexivity| |exact N]. destruct (nth_in_or_default 3 (it_seqs (ih_track h t)) 0) as [K|K]; [exact K|congruence].
Qed.
Lemma phase_irep h w t : irep h w -> In t (w_tracks w) -> state_phase h t = Ok tt.
Proof.
  intros R T. destruct (lr_track _ _ _ _ (ir_lists _ _ R) t T) as (T0 & TA). apply phase_ok; auto; [apply (irep_callable _ _ _ R T)|].
  intros E. apply (lr_instr _ _ _ _ (ir_lists _ _ R) _ (irep_instr _ _ _ R T E)).
Qed.

Lemma track_set_ok h w t i : irep h w -> In t (w_tracks w) -> i = 0 \/ In i (w_instrs w) -> exists h', BKTrackSetInstrument h t i = Ok h' /\ irep h' (wstep w (TSet t i)).
Proof.
  intros R T I. destruct (lr_track _ _ _ _ (ir_lists _ _ R) t T) as (T0 & TA). unfold BKTrackSetInstrument. rewrite (track_of_ok h t T0 TA). cbn [bind wstep].
  destruct (lrep_zero _ _ _ _ (ir_lists _ _ R)) as (Z1 & Z2).
  destruct (Z.eqb_spec i (it_instr (ih_track h t))) as [E|E].
  - exists h. split; [reflexivity|]. destruct (uses t i (w_users w)) eqn:U; [exact R|]. apply (irep_ext h w); [exact R|].
    assert (i = 0) as ->. { destruct (Z.eq_dec i 0) as [|N]; [assumption|]. rewrite E in N. pose proof (lr_uses _ _ _ _ (ir_lists _ _ R) t T N) as X. rewrite <- E in X. apply uses_spec in X. congruence. }
    intros j. rewrite leaves_joins. apply without_none. intros X. destruct (lr_user _ _ _ _ (ir_lists _ _ R) _ _ X) as (_ & Y). rewrite <- E in Y. subst j. rewrite Z2 in X. destruct X.
  - assert (U : uses t i (w_users w) = false). { destruct (uses t i (w_users w)) eqn:U; [|reflexivity]. apply uses_spec in U. destruct (lr_user _ _ _ _ (ir_lists _ _ R) _ _ U) as (_ & Y). congruence. }
    rewrite U. destruct (state_set_ok h _ _ _ t i (ir_lists _ _ R) T I (irep_callable _ _ _ R T) (irep_seqs_live _ _ _ R I)) as (h1 & -> & L1 & I1 & S1 & F1 & R1). cbn [bind].
    destruct (lr_track _ _ _ _ L1 t T) as (_ & A1). rewrite (track_of_ok h1 t T0 A1). cbn [bind].
    pose proof (irep_after h w t i h1 (negb (i =? 0)) R T L1 I1 S1 R1 eq_refl) as R'. destruct (Z.eqb_spec i 0) as [->|N]; [eexists; split; [reflexivity|exact R']|].
    cbn [negb] in R'. rewrite (init_values_ok _ _ t R' T). cbn [bind]. rewrite (phase_irep _ _ t R' T). cbn [bind]. eexists. split; [reflexivity|exact R'].
Qed.

Lemma track_note_ok h w t : irep h w -> In t (w_tracks w) -> track_note h t = Ok h.
Proof.
  intros R T. destruct (lr_track _ _ _ _ (ir_lists _ _ R) t T) as (T0 & TA). unfold track_note. rewrite (track_of_ok h t T0 TA). cbn [bind].
  destruct (it_flag _); [|reflexivity]. rewrite (init_values_ok _ _ t R T). cbn [bind]. rewrite (phase_irep _ _ t R T). reflexivity.
Qed.
Lemma firstn_in {A} (x : A) n l : In x (firstn n l) -> In x l.
Proof. intros H. rewrite <- (firstn_skipn n l). apply in_or_app. left. exact H. Qed.
Lemma track_tick_ok h w t : irep h w -> In t (w_tracks w) -> track_tick h t = Ok h.
Proof.
  intros R T. destruct (lr_track _ _ _ _ (ir_lists _ _ R) t T) as (T0 & TA). unfold track_tick. rewrite (track_of_ok h t T0 TA). cbn [bind]. rewrite (ir_flag _ _ R t T).
  destruct (Z.eqb_spec (it_instr (ih_track h t)) 0) as [E|E]; [reflexivity|]. cbn [negb]. unfold state_tick. rewrite (track_of_ok h t T0 TA). cbn [bind].
  pose proof (irep_instr _ _ _ R T E) as I. destruct (lr_instr _ _ _ _ (ir_lists _ _ R) _ I) as (I0 & IA). rewrite (instr_of_ok h _ I0 IA). cbn [bind].
  rewrite touch_all_ok; [reflexivity|]. intros p P. apply (irep_callable _ _ _ R T). apply firstn_in in P. exact P.
Qed.

(** A track without instrument is in no list; its memory can be used for something else. *)
Lemma no_user h tr ins u t : lrep h tr ins u -> it_instr (ih_track h t) = 0 -> forall j, ~ In t (u j).
Proof.
  intros L E j X. destruct (lr_user _ _ _ _ L _ _ X) as (_ & Y). rewrite E in Y. subst j. destruct (lrep_zero _ _ _ _ L) as (_ & Z0). rewrite Z0 in X. destruct X.
Qed.
Lemma lrep_free h tr ins u t x tr' : lrep h tr ins u -> (forall j, ~ In t (u j)) -> (forall s, In s tr' -> s <> t -> In s tr) -> (forall s, In s tr -> s <> t -> In s tr') ->
  (In t tr' -> t <> 0 /\ it_alive x = true /\ it_instr x = 0) -> lrep (set_track h t x) tr' ins u.
Proof.
  intros [L1 L2 L3 L4 L5 L6] NU SUB SUP X.
  assert (E : forall s, s <> t -> ih_track (set_track h t x) s = ih_track h s) by (intros s N; cbn [set_track ih_track]; apply fset_ne, N).
  assert (ET : ih_track (set_track h t x) t = x) by (cbn [set_track ih_track]; apply fset_eq).
  split; auto.
  - intros s T. destruct (Z.eq_dec s t) as [->|N]; [rewrite ET; destruct (X T) as (? & ? & _); auto|]. rewrite (E s N). apply L1, SUB; assumption.
  - intros i J. destruct (L3 i J) as (K1 & K2 & K3). split; [exact K1|]. split; [|exact K3]. apply (dseg_ext (nx h) (pv h)); [exact K2|]. intros s S. unfold nx, pv. rewrite (E s); [auto|]. intros ->. exact (NU i S).
  - intros i s S. assert (N : s <> t) by (intros ->; exact (NU i S)). destruct (L5 i s S). rewrite (E s N). auto.
  - intros s T. destruct (Z.eq_dec s t) as [->|N]; [rewrite ET; destruct (X T) as (_ & _ & ->); congruence|]. rewrite (E s N). apply L6, SUB; assumption.
Qed.

Lemma irep_free h w t x tr' : irep h w -> (forall j, ~ In t (w_users w j)) -> (forall s, In s tr' -> s <> t -> In s (w_tracks w)) -> (forall s, In s (w_tracks w) -> s <> t -> In s tr') ->
  (In t tr' -> t <> 0 /\ x = mk_itrack true false 0 0 0 none) -> irep (set_track h t x) (mk_world tr' (w_instrs w) (w_users w)).
Proof.
  intros R NU SUB SUP X. pose proof R as [R1 R2 R3 R4 R5 R6 R7].
  assert (E : forall s, s <> t -> ih_track (set_track h t x) s = ih_track h s) by (intros s N; cbn [set_track ih_track]; apply fset_ne, N).
  assert (ET : ih_track (set_track h t x) t = x) by (cbn [set_track ih_track]; apply fset_eq).
  split; cbn [w_tracks w_instrs w_users]; auto.
  - apply (lrep_free h (w_tracks w)); auto. intros T. destruct (X T) as (T0 & ->). auto.
  - intros s T. destruct (Z.eq_dec s t) as [->|N]; [rewrite ET; destruct (X T) as (_ & ->); reflexivity|]. rewrite (E s N). apply R2, SUB; assumption.
  - intros s T. destruct (Z.eq_dec s t) as [->|N]; [rewrite ET; destruct (X T) as (_ & ->); reflexivity|]. rewrite (E s N). apply R3, SUB; assumption.
Qed.

Lemma leaves_twice t u j : leaves t (leaves t u) j = leaves t u j.
Proof. apply without_twice. Qed.
Lemma leaves_no t u j : ~ In t (leaves t u j).
Proof. unfold leaves. rewrite without_in. tauto. Qed.

Lemma track_unset_ok h w t : irep h w -> In t (w_tracks w) -> exists h', BKTrackSetInstrument h t 0 = Ok h' /\ irep h' (mk_world (w_tracks w) (w_instrs w) (leaves t (w_users w))).
Proof.
  intros R T. destruct (track_set_ok h w t 0 R T (or_introl eq_refl)) as (h' & E & R'). exists h'. split; [exact E|]. cbn [wstep] in R'.
  destruct (uses t 0 (w_users w)) eqn:U; [apply uses_spec in U; destruct (lrep_zero _ _ _ _ (ir_lists _ _ R)) as (_ & Z0); rewrite Z0 in U; destruct U|].
  apply (irep_ext h' _ (leaves t (w_users w)) R'). intros j. symmetry. apply leaves_joins.
Qed.

Lemma track_clear_ok h w t : irep h w -> In t (w_tracks w) -> exists h', track_clear h t = Ok h' /\ irep h' (wstep w (TClear t)).
Proof.
  intros R T. unfold track_clear. destruct (track_unset_ok h w t R T) as (h1 & -> & R1). cbn [bind]. destruct (lr_track _ _ _ _ (ir_lists _ _ R1) t T) as (T0 & TA).
  rewrite (track_of_ok h1 t T0 TA). cbn [bind wstep]. eexists. split; [reflexivity|]. rewrite TA.
  apply (irep_free h1 _ t _ (w_tracks w) R1); cbn [w_tracks w_users]; auto. intros j. apply leaves_no.
Qed.

Lemma track_init_ok h w t : irep h w -> t <> 0 -> ~ In t (w_tracks w) -> irep (track_init h t) (wstep w (TInit t)).
Proof.
  intros R T0 T. cbn [wstep]. apply (irep_free h w t _ (t :: w_tracks w) R); auto.
  - intros j X. apply T. apply (lr_user _ _ _ _ (ir_lists _ _ R) _ _ X).
  - intros s [->|S] N; [congruence|exact S].
  - intros s S _. right. exact S.
Qed.

(** Setting no instrument with [BKInstrumentStateSetInstrument] directly. *)
Lemma state_unset_ok h w t : irep h w -> In t (w_tracks w) -> exists h', BKInstrumentStateSetInstrument h t 0 = Ok h' /\ it_instr (ih_track h' t) = 0 /\
  irep (set_track h' t (with_flag (ih_track h' t) false)) (mk_world (w_tracks w) (w_instrs w) (leaves t (w_users w))) /\ it_flag (ih_track h' t) = it_flag (ih_track h t).
Proof.
  intros R T. destruct (state_set_ok h _ _ _ t 0 (ir_lists _ _ R) T (or_introl eq_refl) (irep_callable _ _ _ R T) (irep_seqs_live _ _ _ R (or_introl eq_refl))) as (h1 & E & L1 & I1 & S1 & F1 & R1).
  exists h1. split; [exact E|]. split; [exact I1|]. split; [|exact F1]. pose proof (irep_after h w t 0 h1 false R T L1 I1 S1 R1 eq_refl) as R'.
  apply (irep_ext _ _ (leaves t (w_users w)) R'). intros j. symmetry. apply leaves_joins.
Qed.

Lemma set_track_twice h t x y : forall s, ih_track (set_track (set_track h t x) t y) s = ih_track (set_track h t y) s.
Proof. intros s. cbn [set_track ih_track]. unfold fset. destruct (s =? t); reflexivity. Qed.

(** Memory which is the same everywhere. *)
Lemma irep_same h h' w : irep h w -> (forall t, ih_track h' t = ih_track h t) -> (forall i, ih_instr h' i = ih_instr h i) -> (forall p, ih_live h' p = ih_live h p) -> ih_fresh h' = ih_fresh h -> irep h' w.
Proof.
  intros [[L1 L2 L3 L4 L5 L6] R2 R3 R4 R5 R6 R7] E1 E2 E3 E4. split; [split|..].
  - intros t T. rewrite E1. auto.
  - intros i I. rewrite E2. auto.
  - intros i I. destruct (L3 i I) as (K1 & K2 & K3). rewrite E2. split; [exact K1|]. split; [|exact K3]. apply (dseg_ext (nx h) (pv h)); [exact K2|]. intros x _. unfold nx, pv. rewrite E1. auto.
  - exact L4.
  - intros i t T. rewrite E1. auto.
  - intros t T. rewrite E1. auto.
  - intros t T. unfold seqs_of. rewrite E1, E2. apply (R2 t T).
  - intros t T. rewrite E1. auto.
  - intros i I. rewrite E2. auto.
  - intros p. rewrite E3, (R5 p). split; intros (P & i & I & K); (split; [exact P|exists i; split; [exact I|]]); [rewrite E2|rewrite E2 in K]; exact K.
  - intros i j m n. rewrite !E2. apply R6.
  - rewrite E4. split; [exact (proj1 R7)|]. intros p. rewrite E3. apply (proj2 R7).
Qed.

Lemma track_dispose_ok h w t : irep h w -> In t (w_tracks w) -> exists h', track_dispose h t = Ok h' /\ irep h' (wstep w (TDispose t)).
Proof.
  intros R T. unfold track_dispose. destruct (state_unset_ok h w t R T) as (h1 & -> & I1 & R1 & _). cbn [bind]. destruct (lr_track _ _ _ _ (ir_lists _ _ R1) t T) as (T0 & TA).
  cbn [set_track ih_track] in TA. rewrite fset_eq in TA. cbn [with_flag it_alive] in TA. rewrite (track_of_ok h1 t T0 TA). cbn [bind wstep]. eexists. split; [reflexivity|].
  match goal with |- irep (set_track h1 t ?x) _ => apply (irep_same (set_track (set_track h1 t (with_flag (ih_track h1 t) false)) t x)) end;
    [|intros s; symmetry; apply set_track_twice|reflexivity|reflexivity|reflexivity].
  apply (irep_free _ _ t _ (without t (w_tracks w)) R1); cbn [w_tracks w_users].
  - intros j. apply leaves_no.
  - intros s S _. apply without_in in S. apply S.
  - intros s S N. apply without_in. auto.
  - intros S. apply without_in in S. tauto.
Qed.

(** ** Detaching an instrument *)
Lemma detach_loop_ok i : forall l fuel h w, irep h w -> In i (w_instrs w) -> w_users w i = l -> (length l <= fuel)%nat ->
  exists h', detach_states fuel h (hd 0 l) = Ok h' /\ irep h' (mk_world (w_tracks w) (w_instrs w) (fun j => if j =? i then [] else w_users w j)) /\
    (forall j, ii_seqs (ih_instr h' j) = ii_seqs (ih_instr h j)).
Proof.
  induction l as [|s l IH]; intros fuel h w R I U F.
  - cbn [hd]. exists h. split; [destruct fuel; reflexivity|]. split; [|reflexivity]. apply (irep_ext h w); [exact R|]. intros j. destruct (Z.eqb_spec j i) as [->|]; congruence.
  - destruct fuel as [|fuel]; [cbn in F; lia|]. cbn [hd]. destruct (lr_list _ _ _ _ (ir_lists _ _ R) i I) as (H1 & H2 & H3). rewrite U in H1, H2, H3.
    destruct (lr_user _ _ _ _ (ir_lists _ _ R) i s) as (S & SI); [rewrite U; left; reflexivity|]. destruct (lr_track _ _ _ _ (ir_lists _ _ R) s S) as (S0 & SA).
    cbn [detach_states]. replace (s =? 0) with false by lia. rewrite (track_of_ok h s S0 SA). cbn [bind].
    destruct H2 as (_ & _ & NX & _). unfold nx in NX. rewrite NX.
    destruct (track_unset_ok h w s R S) as (h1 & E1 & R1). rewrite E1. cbn [bind].
    destruct (state_unset_ok h1 _ s R1 S) as (h2 & E2 & I2 & R2 & F2). rewrite E2. cbn [bind]. cbn [w_tracks w_instrs w_users] in R2.
    assert (FL : it_flag (ih_track h2 s) = false).
    { rewrite F2, (ir_flag _ _ R1 s S). destruct (Z.eqb_spec (it_instr (ih_track h1 s)) 0) as [|N]; [reflexivity|]. exfalso. pose proof (lr_uses _ _ _ _ (ir_lists _ _ R1) s S N) as X. exact (leaves_no _ _ _ X). }
    assert (R3 : irep h2 (mk_world (w_tracks w) (w_instrs w) (leaves s (leaves s (w_users w))))).
    { apply (irep_same _ h2 _ R2); try reflexivity. intros t. cbn [set_track ih_track]. unfold fset. destruct (Z.eqb_spec t s) as [->|]; [|reflexivity]. rewrite <- FL. symmetry. apply flag_self. }
    inversion H3 as [|a b N1 N2]; subst a b.
    destruct (IH fuel h2 _ R3 I) as (h' & E & R' & SQ); cbn [w_users w_tracks w_instrs] in *.
    + rewrite leaves_twice. unfold leaves. rewrite U. change (s :: l) with ([] ++ s :: l). rewrite (without_split s [] l); [reflexivity|intros []|exact N1].
    + cbn in F. lia.
    + exists h'. split; [exact E|]. split.
      * apply (irep_ext h' _ (fun j => if j =? i then [] else w_users w j) R'). intros j. cbn [w_users]. destruct (Z.eqb_spec j i) as [|N]; [reflexivity|]. rewrite leaves_twice. symmetry. apply without_none.
        intros X. destruct (lr_user _ _ _ _ (ir_lists _ _ R) j s X). congruence.
      * intros j. rewrite SQ. clear - E1 E2 R R1 S. 
        assert (A : forall h w t h', irep h w -> In t (w_tracks w) -> BKInstrumentStateSetInstrument h t 0 = Ok h' -> ii_seqs (ih_instr h' j) = ii_seqs (ih_instr h j)).
        { clear. intros h w t h' R T E. destruct (state_set_ok h _ _ _ t 0 (ir_lists _ _ R) T (or_introl eq_refl) (irep_callable _ _ _ R T) (irep_seqs_live _ _ _ R (or_introl eq_refl))) as (h1 & E1 & _ & _ & _ & _ & R1).
          assert (h' = h1) as -> by congruence. apply R1. }
        rewrite (A _ _ s _ R1 S E2). unfold BKTrackSetInstrument in E1. binv E1 k K. destruct (0 =? it_instr k); [assert (h1 = h) as -> by congruence; reflexivity|].
        binv E1 h3 K3. pose proof (A _ _ s _ R S K3) as Q. binv E1 k2 K2. change (0 =? 0) with true in E1. cbn iota in E1. assert (h1 = set_track h3 s (with_flag k2 false)) as -> by congruence. exact Q.
Qed.

Lemma detach_ok fuel h w i : irep h w -> In i (w_instrs w) -> (length (w_users w i) <= fuel)%nat ->
  exists h', BKInstrumentDetach fuel h i = Ok h' /\ irep h' (wstep w (IDetach i)) /\ (forall j, ii_seqs (ih_instr h' j) = ii_seqs (ih_instr h j)).
Proof.
  intros R I F. unfold BKInstrumentDetach. destruct (lr_instr _ _ _ _ (ir_lists _ _ R) i I) as (I0 & IA). rewrite (instr_of_ok h i I0 IA). cbn [bind].
  destruct (lr_list _ _ _ _ (ir_lists _ _ R) i I) as (-> & _). apply (detach_loop_ok i (w_users w i)); auto.
Qed.

(** ** Instruments and their sequences *)
Lemma lrep_fields h h' tr ins u : lrep h tr ins u ->
  (forall t, it_alive (ih_track h' t) = it_alive (ih_track h t) /\ it_instr (ih_track h' t) = it_instr (ih_track h t) /\ it_prev (ih_track h' t) = it_prev (ih_track h t) /\ it_next (ih_track h' t) = it_next (ih_track h t)) ->
  (forall i, In i ins -> ii_alive (ih_instr h' i) = ii_alive (ih_instr h i) /\ ii_list (ih_instr h' i) = ii_list (ih_instr h i)) -> lrep h' tr ins u.
Proof.
  intros [L1 L2 L3 L4 L5 L6] T I. split; auto.
  - intros t H. destruct (L1 t H), (T t) as (-> & _). auto.
  - intros i H. destruct (L2 i H), (I i H) as (-> & _). auto.
  - intros i H. destruct (L3 i H) as (K1 & K2 & K3), (I i H) as (_ & ->). split; [exact K1|]. split; [|exact K3]. apply (dseg_ext (nx h) (pv h)); [exact K2|]. intros x _. unfold nx, pv. destruct (T x) as (_ & _ & ? & ?). auto.
  - intros i t H. destruct (L5 i t H), (T t) as (_ & -> & _). auto.
  - intros t H. destruct (T t) as (_ & -> & _). apply L6, H.
Qed.

Lemma irep_live0 h w : irep h w -> ih_live h 0 = false.
Proof. intros R. destruct (ih_live h 0) eqn:E; [|reflexivity]. apply (ir_live _ _ R) in E. destruct E; congruence. Qed.

Lemma free_seqs_ok : forall l h, (forall p, In p l -> p <> 0 -> ih_live h p = true) -> (forall m n, nth m l 0 = nth n l 0 -> nth m l 0 <> 0 -> m = n) -> ih_live h 0 = false ->
  exists h', free_seqs h l = Ok h' /\ ih_instr h' = ih_instr h /\ ih_track h' = ih_track h /\ ih_fresh h' = ih_fresh h /\ (forall p, ih_live h' p = true <-> ih_live h p = true /\ ~ In p l).
Proof.
  induction l as [|p l IH]; intros h LV D Z0; [exists h; repeat split; auto; tauto|]. cbn [free_seqs]. unfold free_seq.
  assert (D' : forall m n, nth m l 0 = nth n l 0 -> nth m l 0 <> 0 -> m = n) by (intros m n E N; specialize (D (S m) (S n) E N); congruence).
  destruct (Z.eqb_spec p 0) as [->|NZ].
  - cbn [bind]. destruct (IH h) as (h' & E & E1 & E2 & E3 & E4); auto; [intros q Q; apply LV; right; exact Q|]. exists h'. split; [exact E|]. repeat split; auto.
    + apply E4 in H. tauto.
    + intros [<-|Q]; [|apply E4 in H; tauto]. apply E4 in H. destruct H. congruence.
    + intros (H1 & H2). apply E4. cbn in H2. tauto.
  - rewrite (LV p (or_introl eq_refl) NZ). cbn [bind].
    assert (NP : ~ In p l). { intros X. apply (In_nth _ _ 0) in X. destruct X as (n & _ & X). specialize (D 0%nat (S n)). cbn [nth] in D. rewrite X in D. specialize (D eq_refl NZ). discriminate. }
    destruct (IH (set_live h p false)) as (h' & E & E1 & E2 & E3 & E4); auto.
    + intros q Q N. cbn [set_live ih_live]. rewrite fset_ne by (intros ->; exact (NP Q)). apply LV; [right; exact Q|exact N].
    + cbn [set_live ih_live]. unfold fset. destruct (0 =? p); [reflexivity|exact Z0].
    + exists h'. split; [exact E|]. split; [rewrite E1; reflexivity|]. split; [rewrite E2; reflexivity|]. split; [rewrite E3; reflexivity|]. intros q. rewrite E4. cbn [set_live ih_live In]. unfold fset.
      destruct (Z.eqb_spec q p) as [->|N]; [split; [intros (? & _); discriminate|tauto]|]. split; [intros (? & ?); split; [assumption|intuition congruence]|tauto].
Qed.

Lemma in_nth_nz (l : list Z) p : In p l -> exists n, nth n l 0 = p.
Proof. intros X. apply (In_nth _ _ 0) in X. destruct X as (n & _ & X). eauto. Qed.
Lemma nth_nz_in (l : list Z) n : nth n l 0 <> 0 -> In (nth n l 0) l.
Proof. intros N. destruct (nth_in_or_default n l 0) as [K|K]; [exact K|congruence]. Qed.

Lemma instr_dispose_ok fuel h w i : irep h w -> In i (w_instrs w) -> (length (w_users w i) <= fuel)%nat -> exists h', instr_dispose fuel h i = Ok h' /\ irep h' (wstep w (IDispose i)).
Proof.
  intros R I F. unfold instr_dispose. destruct (detach_ok fuel h w i R I F) as (h1 & -> & R1 & _). cbn [bind]. cbn [wstep] in R1.
  destruct (lr_instr _ _ _ _ (ir_lists _ _ R1) i I) as (I0 & IA). rewrite (instr_of_ok h1 i I0 IA). cbn [bind].
  destruct (free_seqs_ok (ii_seqs (ih_instr h1 i)) h1) as (h2 & E & E1 & E2 & E3 & E4).
  - intros p P N. apply (ir_live _ _ R1). eauto.
  - intros m n X N. apply (ir_once _ _ R1 i i m n I I X N).
  - apply (irep_live0 _ _ R1).
  - rewrite E. cbn [bind wstep]. eexists. split; [reflexivity|]. set (h3 := set_instr _ _ _).
    assert (X : forall j, j <> i -> ih_instr h3 j = ih_instr h1 j) by (intros j J; unfold h3; cbn [set_instr ih_instr]; rewrite fset_ne by exact J; rewrite E1; reflexivity).
    assert (T : ih_track h3 = ih_track h1) by exact E2.
    assert (NU : forall t, In t (w_tracks w) -> it_instr (ih_track h1 t) <> i).
    { intros t HT EQ. assert (N : it_instr (ih_track h1 t) <> 0) by congruence. pose proof (lr_uses _ _ _ _ (ir_lists _ _ R1) t HT N) as U. cbn [w_users] in U. rewrite EQ, Z.eqb_refl in U. destruct U. }
    pose proof (ir_lists _ _ R1) as L. cbn [w_tracks w_instrs w_users] in L. destruct L as [L1 L2 L3 L4 L5 L6]. split; cbn [w_tracks w_instrs w_users].
    + split; rewrite ?T; auto.
      * intros j J. apply without_in in J as (J & N). rewrite (X j N). auto.
      * intros j J. apply without_in in J as (J & N). rewrite (X j N). destruct (L3 j J) as (K1 & K2 & K3). split; [exact K1|]. split; [|exact K3]. apply (dseg_ext (nx h1) (pv h1)); [exact K2|]. intros x _. unfold nx, pv. rewrite T. auto.
      * intros j J. destruct (Z.eqb_spec j i) as [|N]; [reflexivity|]. specialize (L4 j). cbv beta in L4. replace (j =? i) with false in L4 by lia. apply L4. intros Q. apply J, without_in. auto.
    + intros t HT. rewrite T, (ir_seqs _ _ R1 t HT). unfold seqs_of. destruct (it_instr (ih_track h1 t) =? 0); [reflexivity|]. rewrite X by apply (NU t HT). reflexivity.
    + intros t HT. rewrite T. apply (ir_flag _ _ R1 t HT).
    + intros j J. apply without_in in J as (J & N). rewrite (X j N). apply (ir_four _ _ R1 j J).
    + intros p. change (ih_live h3) with (ih_live h2). rewrite E4, (ir_live _ _ R1 p). cbn [w_instrs]. split.
      * intros ((P & j & J & K) & N). split; [exact P|]. exists j. assert (JI : j <> i) by (intros ->; contradiction). split; [apply without_in; auto|]. rewrite (X j JI). exact K.
      * intros (P & j & J & K). apply without_in in J as (J & JI). rewrite (X j JI) in K. split; [eauto|]. intros Q. apply JI.
        apply in_nth_nz in K as (m & K). apply in_nth_nz in Q as (n & Q). apply (ir_once _ _ R1 j i m n J I); congruence.
    + intros j k m n J K. apply without_in in J as (J & JI). apply without_in in K as (K & KI). rewrite (X j JI), (X k KI). apply (ir_once _ _ R1 j k m n J K).
    + change (ih_live h3) with (ih_live h2). change (ih_fresh h3) with (ih_fresh h2). rewrite E3. split; [exact (proj1 (ir_fresh _ _ R1))|]. intros p P. apply E4 in P. apply (proj2 (ir_fresh _ _ R1)), P.
Qed.

Lemma instr_init_ok h w i : irep h w -> i <> 0 -> ~ In i (w_instrs w) -> irep (instr_init h i) (wstep w (IInit i)).
Proof.
  intros R I0 I. set (h' := instr_init h i). assert (X : forall j, j <> i -> ih_instr h' j = ih_instr h j) by (intros j J; unfold h'; cbn [instr_init set_instr ih_instr]; apply fset_ne, J).
  assert (XI : ih_instr h' i = mk_iinstr true 0 0 none) by (unfold h'; cbn [instr_init set_instr ih_instr]; apply fset_eq).
  assert (N : forall j, In j (w_instrs w) -> j <> i) by (intros j J ->; contradiction).
  pose proof (ir_lists _ _ R) as [L1 L2 L3 L4 L5 L6]. cbn [wstep]. split; cbn [w_tracks w_instrs w_users].
  - split; auto.
    + intros j [<-|J]; [rewrite XI; auto|]. rewrite (X j (N j J)). auto.
    + intros j [<-|J]; [rewrite XI, (L4 i I); repeat split; constructor|]. rewrite (X j (N j J)). apply (L3 j J).
    + intros j J. apply L4. intros Q. apply J. right. exact Q.
  - intros t T. change (ih_track h') with (ih_track h). rewrite (ir_seqs _ _ R t T). unfold seqs_of. destruct (Z.eqb_spec (it_instr (ih_track h t)) 0) as [|E]; [reflexivity|]. rewrite X; [reflexivity|]. apply N, (irep_instr _ _ _ R T E).
  - apply (ir_flag _ _ R).
  - intros j [<-|J]; [rewrite XI; reflexivity|]. rewrite (X j (N j J)). apply (ir_four _ _ R j J).
  - intros p. change (ih_live h') with (ih_live h). rewrite (ir_live _ _ R p). split; intros (P & j & J & K); (split; [exact P|]).
    + exists j. split; [right; exact J|]. rewrite (X j (N j J)). exact K.
    + destruct J as [<-|J]; [rewrite XI in K; apply none_in in K; congruence|]. exists j. split; [exact J|]. rewrite (X j (N j J)) in K. exact K.
  - assert (Q : forall m, nth m none 0 = 0) by (intros m; do 5 (destruct m as [|m]; [reflexivity|]); reflexivity).
    intros j k m n [<-|J] [<-|K]; rewrite ?XI; cbn [ii_seqs]; rewrite ?Q; try congruence.
    rewrite (X j (N j J)), (X k (N k K)). apply (ir_once _ _ R j k m n J K).
  - apply (ir_fresh _ _ R).
Qed.

(** Loops over the states of an instrument. *)
Lemma over_same f h : forall l p fuel, dseg (nx h) (pv h) p l 0 -> (forall s, In s l -> it_alive (ih_track h s) = true /\ f h s = Ok h) -> (length l <= fuel)%nat -> over_states fuel f h (hd 0 l) = Ok h.
Proof.
  induction l as [|s l IH]; intros p fuel D H F; [destruct fuel; reflexivity|]. destruct fuel as [|fuel]; [cbn in F; lia|]. destruct D as (S0 & _ & NX & D). destruct (H s (or_introl eq_refl)) as (SA & E).
  cbn [hd over_states]. replace (s =? 0) with false by lia. rewrite (track_of_ok h s S0 SA). cbn [bind]. rewrite E. cbn [bind]. rewrite (track_of_ok h s S0 SA). cbn [bind].
  unfold nx in NX. rewrite NX. apply (IH s fuel D); [|cbn in F; lia]. intros x X. apply H. right. exact X.
Qed.

Lemma over_upd slot q : forall l p fuel h, dseg (nx h) (pv h) p l 0 -> NoDup l -> (forall s, In s l -> it_alive (ih_track h s) = true) -> (length l <= fuel)%nat ->
  exists h', over_states fuel (fun h s => let* st := track_of h s in Ok (set_track h s (with_seqs st (upd (it_seqs st) slot q)))) h (hd 0 l) = Ok h' /\
    ih_instr h' = ih_instr h /\ ih_live h' = ih_live h /\ ih_fresh h' = ih_fresh h /\
    (forall t, ih_track h' t = if existsb (Z.eqb t) l then with_seqs (ih_track h t) (upd (it_seqs (ih_track h t)) slot q) else ih_track h t).
Proof.
  induction l as [|s l IH]; intros p fuel h D ND A F; [exists h; split; [destruct fuel; reflexivity|auto]|]. destruct fuel as [|fuel]; [cbn in F; lia|].
  destruct D as (S0 & _ & NX & D). pose proof (A s (or_introl eq_refl)) as SA. inversion ND as [|a b N1 N2]; subst a b.
  cbn [hd over_states]. replace (s =? 0) with false by lia. rewrite (track_of_ok h s S0 SA). cbn [bind]. set (h1 := set_track h s _).
  assert (T1 : ih_track h1 s = with_seqs (ih_track h s) (upd (it_seqs (ih_track h s)) slot q)) by (unfold h1; cbn [set_track ih_track]; apply fset_eq).
  assert (X1 : forall t, t <> s -> ih_track h1 t = ih_track h t) by (intros t T; unfold h1; cbn [set_track ih_track]; apply fset_ne, T).
  rewrite (track_of_ok h1 s S0) by (rewrite T1; exact SA). cbn [bind]. rewrite T1. cbn [with_seqs it_next]. unfold nx in NX. rewrite NX.
  destruct (IH s fuel h1) as (h' & E & E1 & E2 & E3 & E4).
  - apply (dseg_ext (nx h) (pv h)); [exact D|]. intros x X. unfold nx, pv. rewrite X1 by (intros ->; contradiction). auto.
  - exact N2.
  - intros x X. rewrite X1 by (intros ->; contradiction). apply A. right. exact X.
  - cbn in F. lia.
  - exists h'. split; [exact E|]. split; [rewrite E1; reflexivity|]. split; [rewrite E2; reflexivity|]. split; [rewrite E3; reflexivity|]. intros t. rewrite E4. cbn [existsb].
    destruct (Z.eqb_spec t s) as [->|N].
    + cbn [orb]. destruct (existsb (Z.eqb s) l) eqn:Q; [apply existsb_exists in Q; destruct Q as (x & X1' & X2'); replace x with s in X1' by lia; contradiction|]. exact T1.
    + cbn [orb]. rewrite (X1 t N). reflexivity.
Qed.

Lemma in_upd (l : list Z) n a x : (n < length l)%nat -> x <> 0 -> (In x (upd l n a) <-> x = a \/ exists m, m <> n /\ nth m l 0 = x).
Proof.
  intros L X. split.
  - intros H. apply in_nth_nz in H as (m & H). destruct (Nat.eq_dec m n) as [->|M]; [left; rewrite nth_upd_eq in H by exact L; congruence|]. right. exists m. split; [exact M|]. rewrite nth_upd_neq in H by congruence. exact H.
  - intros [->|(m & M & H)].
    + rewrite <- (nth_upd_eq l n a 0 L) at 1. apply nth_In. rewrite upd_length. exact L.
    + rewrite <- (nth_upd_neq l n m a 0) in H by congruence. rewrite <- H in X |- *. apply nth_nz_in. exact X.
Qed.

(** The rest of [set_sequence] once there is a sequence to store. *)
Definition store_sequence fuel h ins i n p : res (iheap * Z) :=
  let* h := free_seq h (nth n (ii_seqs ins) 0) in
  let h := set_instr h i (mk_iinstr (ii_alive ins) (ii_list ins) (ii_num ins) (upd (ii_seqs ins) n p)) in
  let* h := over_states fuel (fun h s => let* st := track_of h s in Ok (set_track h s (with_seqs st (upd (it_seqs st) n p)))) h (ii_list ins) in
  let* ins := instr_of h i in
  let h := set_instr h i (mk_iinstr (ii_alive ins) (ii_list ins) (num_seqs (ii_seqs ins) 0 0) (ii_seqs ins)) in
  let* h := over_states fuel (fun h s => let* _ := state_defaults h s in let* _ := state_phase h s in Ok h) h (ii_list ins) in
  let* h := over_states fuel (fun h s => let* _ := track_of h s in Ok h) h (ii_list ins) in
  Ok (h, 0).

Lemma set_sequence_ok fuel h w i slot new : irep h w -> In i (w_instrs w) -> 0 <= slot -> (length (w_users w i) <= fuel)%nat ->
  exists h' r, set_sequence fuel h i slot new = Ok (h', r) /\ irep h' w /\ stored h i slot new h' r.
Proof.
  intros R I SL F. unfold set_sequence, stored. destruct (Z.ltb_spec slot 4) as [S4|]; [|exists h, (-1); destruct new; auto]. destruct (lr_instr _ _ _ _ (ir_lists _ _ R) i I) as (I0 & IA). rewrite (instr_of_ok h i I0 IA). cbn [bind].
  destruct (ir_fresh _ _ R) as (FR & FL). pose proof (ir_four _ _ R i I) as LEN. set (n := Z.to_nat slot). assert (SN : (n < 4)%nat) by lia.
  set (sq := ii_seqs (ih_instr h i)) in *. set (o := nth n sq 0) in *.
  assert (OL : o <> 0 -> ih_live h o = true). { intros N. apply (ir_live _ _ R). split; [exact N|]. exists i. split; [exact I|]. apply nth_nz_in. exact N. }
  assert (OLD : forall j m, In j (w_instrs w) -> nth m (ii_seqs (ih_instr h j)) 0 <> 0 -> ih_live h (nth m (ii_seqs (ih_instr h j)) 0) = true).
  { intros j m J N. apply (ir_live _ _ R). split; [exact N|]. exists j. split; [exact J|]. apply nth_nz_in, N. }
  assert (CORE : forall h0 p, (ih_instr h0 = ih_instr h /\ ih_track h0 = ih_track h /\ ih_fresh h <= ih_fresh h0 /\ (p = 0 \/ (p = ih_fresh h /\ ih_fresh h < ih_fresh h0)) /\ (forall x, ih_live h0 x = true <-> ih_live h x = true \/ (x = p /\ p <> 0))) -> exists h' r, store_sequence fuel h0 (ih_instr h i) i n p = Ok (h', r) /\ irep h' w /\ r = 0 /\ ii_seqs (ih_instr h' i) = upd sq n p /\ (forall j, j <> i -> ih_instr h' j = ih_instr h j)).
  2: { destruct new; [eauto 6|..].
    - destruct (CORE h 0) as (h' & r & E & K1 & K2 & K3 & K4); [repeat split; auto; try lia; [intros [X|(? & ?)]; [exact X|lia]]|].
      exists h', r. split; [exact E|]. split; [exact K1|]. split; [exact K2|]. split; [exists 0; split; [exact K3|reflexivity]|exact K4].
    - edestruct (CORE (mk_iheap (ih_instr h) (ih_track h) (fset (ih_live h) (ih_fresh h) true) (ih_fresh h + 1)) (ih_fresh h)) as (h' & r & E & K1 & K2 & K3 & K4).
      2: { exists h', r. split; [exact E|]. split; [exact K1|]. split; [exact K2|]. split; [|exact K4]. exists (ih_fresh h). split; [exact K3|]. split; [lia|]. destruct (ih_live h (ih_fresh h)) eqn:Q; [|reflexivity]. apply FL in Q. lia. }
      cbn [ih_instr ih_track ih_fresh ih_live]. split; [reflexivity|]. split; [reflexivity|]. split; [lia|]. split; [right; split; [reflexivity|lia]|]. intros x. unfold fset.
      destruct (Z.eqb_spec x (ih_fresh h)) as [->|]; [split; [intros _; right; split; [reflexivity|lia]|reflexivity]|tauto]. }
  intros h0 p H0. unfold store_sequence. fold sq. fold o.
  destruct H0 as (A1 & A2 & A3 & A4 & A5).
  assert (PF : forall j m, In j (w_instrs w) -> nth m (ii_seqs (ih_instr h j)) 0 <> 0 -> p <> 0 -> nth m (ii_seqs (ih_instr h j)) 0 <> p)
    by (intros j m J N PN E; pose proof (FL _ (OLD j m J N)); lia).
  assert (E1 : exists h1, free_seq h0 o = Ok h1 /\ ih_instr h1 = ih_instr h /\ ih_track h1 = ih_track h /\ ih_fresh h1 = ih_fresh h0 /\ (forall x, ih_live h1 x = true <-> (ih_live h x = true /\ x <> o) \/ (x = p /\ p <> 0)))
    by (unfold free_seq; destruct (Z.eqb_spec o 0) as [OZ|ON];
      [exists h0; repeat split; auto; [intros X; apply A5 in X; destruct X as [X|X]; [left; split; [exact X|intros ->; rewrite OZ, (irep_live0 _ _ R) in X; discriminate]|right; exact X]|intros [(X & _)|X]; apply A5; auto]
      |rewrite (proj2 (A5 o) (or_introl (OL ON))); eexists; split; [reflexivity|]; cbn [set_live ih_instr ih_track ih_fresh ih_live]; repeat split; auto;
       [unfold fset; destruct (Z.eqb_spec x o); [discriminate|]; intros X; apply A5 in X; tauto
       |unfold fset; destruct (Z.eqb_spec x o) as [->|]; [intros [X|(X & X')]; [tauto|exfalso; apply (PF i n I ON X'); exact X]|intros X; apply A5; tauto]]]).
  destruct E1 as (h1 & -> & B1 & B2 & B3 & B4); cbn [bind].
  set (h2 := set_instr h1 i _).
  assert (C1 : ih_track h2 = ih_track h) by exact B2.
  destruct (lr_list _ _ _ _ (ir_lists _ _ R) i I) as (LH & LD & LN).
  assert (LA : forall s, In s (w_users w i) -> it_alive (ih_track h s) = true) by (intros s X; destruct (lr_user _ _ _ _ (ir_lists _ _ R) i s X) as (X1 & _); apply (lr_track _ _ _ _ (ir_lists _ _ R) s X1)).
  destruct (over_upd n p (w_users w i) 0 fuel h2) as (h3 & E3 & D1 & D2 & D3 & D4);
    [apply (dseg_ext (nx h) (pv h)); [exact LD|]; intros x _; unfold nx, pv; rewrite C1; auto | exact LN | intros s X; rewrite C1; apply LA, X | exact F|].
  rewrite LH, E3; cbn [bind].
  assert (I3 : ih_instr h3 i = mk_iinstr (ii_alive (ih_instr h i)) (ii_list (ih_instr h i)) (ii_num (ih_instr h i)) (upd sq n p)) by (rewrite D1; unfold h2; cbn [set_instr ih_instr]; apply fset_eq).
  rewrite (instr_of_ok h3 i I0) by (rewrite I3; exact IA); cbn [bind]; rewrite I3; cbn [ii_alive ii_list ii_seqs].
  set (h4 := set_instr h3 i _).
  assert (I4 : ih_instr h4 i = mk_iinstr (ii_alive (ih_instr h i)) (ii_list (ih_instr h i)) (num_seqs (upd sq n p) 0 0) (upd sq n p)) by (unfold h4; cbn [set_instr ih_instr]; apply fset_eq).
  assert (X4 : forall j, j <> i -> ih_instr h4 j = ih_instr h j) by (intros j J; unfold h4; cbn [set_instr ih_instr]; rewrite fset_ne by exact J; rewrite D1; unfold h2; cbn [set_instr ih_instr]; rewrite fset_ne by exact J; rewrite B1; reflexivity).
  assert (T4 : forall t, ih_track h4 t = if existsb (Z.eqb t) (w_users w i) then with_seqs (ih_track h t) (upd (it_seqs (ih_track h t)) n p) else ih_track h t)
    by (intros t; unfold h4; cbn [set_instr ih_track]; rewrite D4, C1; reflexivity).
  assert (V4 : forall x, ih_live h4 x = true <-> (ih_live h x = true /\ x <> o) \/ (x = p /\ p <> 0)) by (intros x; unfold h4; cbn [set_instr ih_live]; rewrite D2; unfold h2; cbn [set_instr ih_live]; apply B4).
  assert (F4 : ih_fresh h4 = ih_fresh h0) by (unfold h4; cbn [set_instr ih_fresh]; rewrite D3; unfold h2; cbn [set_instr ih_fresh]; exact B3).
  assert (L4 : lrep h4 (w_tracks w) (w_instrs w) (w_users w))
    by (apply (lrep_fields h); [apply (ir_lists _ _ R)|intros t; rewrite T4; destruct (existsb _ _); auto|intros j J; destruct (Z.eq_dec j i) as [->|N]; [rewrite I4; auto|rewrite (X4 j N); auto]]).
  assert (IT : forall t, it_instr (ih_track h4 t) = it_instr (ih_track h t)) by (intros t; rewrite T4; destruct (existsb _ _); reflexivity).
  assert (R4 : irep h4 w).
  { split; [exact L4|..].
  1: intros t T; rewrite IT; unfold seqs_of; destruct (Z.eqb_spec (it_instr (ih_track h t)) 0) as [TZ|TN];
    [rewrite T4; destruct (existsb (Z.eqb t) (w_users w i)) eqn:U;
      [exfalso; apply (proj1 (uses_spec t i (w_users w))) in U; destruct (lr_user _ _ _ _ (ir_lists _ _ R) i t U); congruence
      |rewrite (ir_seqs _ _ R t T); unfold seqs_of; rewrite TZ; reflexivity]
    |rewrite T4; destruct (existsb (Z.eqb t) (w_users w i)) eqn:U;
      [apply (proj1 (uses_spec t i (w_users w))) in U; destruct (lr_user _ _ _ _ (ir_lists _ _ R) i t U) as (_ & UE); rewrite UE, I4; cbn [with_seqs it_seqs ii_seqs]; f_equal;
         rewrite (ir_seqs _ _ R t T), UE; unfold seqs_of; replace (i =? 0) with false by lia; reflexivity
      |assert (NE : it_instr (ih_track h t) <> i) by (intros E; assert (uses t i (w_users w) = true) by (apply uses_spec; rewrite <- E; apply (lr_uses _ _ _ _ (ir_lists _ _ R) t T TN)); unfold uses in *; congruence);
         rewrite (X4 _ NE), (ir_seqs _ _ R t T); unfold seqs_of; replace (it_instr (ih_track h t) =? 0) with false by lia; reflexivity]].
  1: intros t T; rewrite IT; replace (it_flag (ih_track h4 t)) with (it_flag (ih_track h t)) by (rewrite T4; destruct (existsb _ _); reflexivity); apply (ir_flag _ _ R t T).
  1: intros j J; destruct (Z.eq_dec j i) as [->|N]; [rewrite I4; cbn [ii_seqs]; rewrite upd_length; exact LEN|rewrite (X4 j N); apply (ir_four _ _ R j J)].
  1: intros x; rewrite V4; split.
  1: intros [(X & XO)|(-> & XP)];
    [apply (ir_live _ _ R) in X; destruct X as (XN & j & J & K); split; [exact XN|]; exists j; split; [exact J|]; destruct (Z.eq_dec j i) as [->|N]; [|rewrite (X4 j N); exact K];
      rewrite I4; cbn [ii_seqs]; apply in_upd; [lia|exact XN|]; right; apply in_nth_nz in K as (m & K); exists m; split; [intros ->; apply XO; symmetry; exact K|exact K]
    |split; [exact XP|]; exists i; split; [exact I|]; rewrite I4; cbn [ii_seqs]; apply in_upd; [lia|exact XP|left; reflexivity]].
  1: intros (XN & j & J & K); destruct (Z.eq_dec j i) as [->|N];
    [rewrite I4 in K; cbn [ii_seqs] in K; apply in_upd in K; [|lia|exact XN]; destruct K as [->|(m & M & K)]; [right; auto|left]; unfold sq in K; rewrite <- K in XN |- *; split; [apply (OLD i m I XN)|];
      intros E; apply M; apply (ir_once _ _ R i i m n I I E XN)
    |rewrite (X4 j N) in K; left; apply in_nth_nz in K as (m & K); rewrite <- K in XN |- *; split; [apply (OLD j m J XN)|]; intros E; apply N; apply (ir_once _ _ R j i m n J I E XN)].
  1: assert (NI : forall m, nth m (upd sq n p) 0 = if Nat.eqb m n then p else nth m sq 0) by (intros m; destruct (Nat.eqb_spec m n) as [->|M]; [apply nth_upd_eq; lia|apply nth_upd_neq; congruence]);
    intros j k m m' J K; destruct (Z.eq_dec j i) as [->|NJ]; destruct (Z.eq_dec k i) as [->|NK]; rewrite ?I4, ?(X4 j) by assumption; rewrite ?(X4 k) by assumption; cbn [ii_seqs]; rewrite ?NI;
    [destruct (Nat.eqb_spec m n) as [->|M], (Nat.eqb_spec m' n) as [->|M']; intros E N;
       [auto|exfalso; apply (PF i m' I); [unfold sq in E; congruence|exact N|unfold sq in E; congruence]|exfalso; unfold sq in E, N; apply (PF i m I N); congruence|apply (ir_once _ _ R i i m m' I I E N)]
    |destruct (Nat.eqb_spec m n) as [->|M]; intros E N; [exfalso; apply (PF k m' K); [congruence|exact N|congruence]|apply (ir_once _ _ R i k m m' I K E N)]
    |destruct (Nat.eqb_spec m' n) as [->|M']; intros E N; [exfalso; apply (PF j m J N); congruence|apply (ir_once _ _ R j i m m' J I E N)]
    |intros E N; apply (ir_once _ _ R j k m m' J K E N)].
  rewrite F4; split; [lia|]; intros x X; apply V4 in X; destruct X as [(X & _)|(-> & X)]; [pose proof (FL x X); lia|lia]. }
  assert (LD4 : dseg (nx h4) (pv h4) 0 (w_users w i) 0) by (apply (lr_list _ _ _ _ L4 i I)).
  assert (LA4 : forall s, In s (w_users w i) -> In s (w_tracks w) /\ s <> 0 /\ it_alive (ih_track h4 s) = true) by (intros s X; destruct (lr_user _ _ _ _ L4 i s X) as (X1 & _); destruct (lr_track _ _ _ _ L4 s X1); auto).
  rewrite LH; rewrite (over_same _ h4 (w_users w i) 0 fuel LD4);
    [|intros s X; destruct (LA4 s X) as (X1 & X2 & X3); split; [exact X3|]; rewrite (defaults_ok h4 s X2 X3 (irep_callable _ _ _ R4 X1)); cbn [bind]; rewrite (phase_irep _ _ s R4 X1); reflexivity|exact F].
  cbn [bind]; rewrite (over_same _ h4 (w_users w i) 0 fuel LD4); [|intros s X; destruct (LA4 s X) as (X1 & X2 & X3); split; [exact X3|]; rewrite (track_of_ok h4 s X2 X3); reflexivity|exact F].
  cbn [bind]; exists h4, 0; split; [reflexivity|]; split; [exact R4|]; split; [reflexivity|]; split; [rewrite I4; reflexivity|exact X4].
Qed.

(** ** Runs *)
Lemma irep_init : irep iheap_init world_init.
Proof.
  split; cbn; try tauto; [split; cbn; tauto| |split; [lia|discriminate]].
  intros p. split; [discriminate|]. intros (_ & i & [] & _).
Qed.

Lemma users_len h w i : irep h w -> NoDup (w_tracks w) -> (length (w_users w i) <= length (w_tracks w))%nat.
Proof.
  intros R ND. pose proof (ir_lists _ _ R) as L. destruct (in_dec Z.eq_dec i (w_instrs w)) as [J|J].
  - apply NoDup_incl_length; [apply (lr_list _ _ _ _ L i J)|]. intros x X. apply (lr_user _ _ _ _ L i x X).
  - rewrite (lr_out _ _ _ _ L i J). cbn. lia.
Qed.

Lemma tracks_step w o : NoDup (w_tracks w) -> iallowed w o -> NoDup (w_tracks (wstep w o)) /\ (length (w_tracks (wstep w o)) <= S (length (w_tracks w)))%nat.
Proof.
  intros ND A. destruct o; cbn [wstep w_tracks]; try (split; [exact ND|lia]).
  - destruct A. split; [constructor; assumption|cbn; lia].
  - split; [apply NoDup_without, ND|]. pose proof (length_without t (w_tracks w)). lia.
  - destruct (uses _ _ _); cbn; (split; [exact ND|lia]).
Qed.

Lemma istep_ok fuel h w o : irep h w -> NoDup (w_tracks w) -> (length (w_tracks w) <= fuel)%nat -> iallowed w o -> exists h', istep fuel h o = Ok h' /\ irep h' (wstep w o).
Proof.
  intros R ND F A. assert (U : forall i, (length (w_users w i) <= fuel)%nat) by (intros i; pose proof (users_len h w i R ND); lia). destruct o; cbn [istep iallowed] in *.
  - destruct A. eexists. split; [reflexivity|]. apply track_init_ok; assumption.
  - apply track_dispose_ok; assumption.
  - destruct A. apply track_set_ok; assumption.
  - rewrite (track_note_ok _ _ _ R A). eauto.
  - rewrite (track_tick_ok _ _ _ R A). eauto.
  - apply track_clear_ok; assumption.
  - destruct A. eexists. split; [reflexivity|]. apply instr_init_ok; assumption.
  - apply instr_dispose_ok; auto.
  - destruct (detach_ok fuel h w i R A (U i)) as (h' & E & R' & _). eauto.
  - destruct A as (A1 & A2). destruct (set_sequence_ok fuel h w i slot new R A1 A2 (U i)) as (h' & r & -> & R' & _). cbn [bind wstep]. eauto.
Qed.

Lemma iruns_ok fuel : forall ops h w, irep h w -> NoDup (w_tracks w) -> (length (w_tracks w) + length ops <= fuel)%nat -> iallowed_all w ops ->
  exists h', iruns fuel h ops = Ok h' /\ irep h' (world_after w ops) /\ NoDup (w_tracks (world_after w ops)) /\ (length (w_tracks (world_after w ops)) <= fuel)%nat.
Proof.
  induction ops as [|o ops IH]; intros h w R ND F A; [exists h; cbn [length] in F; change (world_after w []) with w; split; [reflexivity|]; split; [exact R|]; split; [exact ND|lia]|]. destruct A as (A & AS). cbn [length] in F.
  destruct (istep_ok fuel h w o R ND ltac:(lia) A) as (h1 & E & R1). destruct (tracks_step w o ND A) as (ND1 & LE). cbn [iruns]. rewrite E. cbn [bind world_after fold_left].
  apply (IH h1 (wstep w o) R1 ND1 ltac:(lia) AS).
Qed.

Lemma listed_ok h : forall l p fuel, dseg (nx h) (pv h) p l 0 -> (length l <= fuel)%nat -> listed fuel h (hd 0 l) = l.
Proof.
  induction l as [|s l IH]; intros p fuel D F; [destruct fuel; reflexivity|]. destruct fuel as [|fuel]; [cbn in F; lia|]. destruct D as (S0 & _ & NX & D). cbn [hd listed]. replace (s =? 0) with false by lia. unfold nx in NX. rewrite NX.
  f_equal. apply (IH s fuel D). cbn in F. lia.
Qed.
Lemma linked_ok h : forall l p, dseg (nx h) (pv h) p l 0 -> linked_back h p l.
Proof. induction l as [|s l IH]; intros p D; [exact I|]. destruct D as (_ & PV & _ & D). split; [exact PV|apply IH, D]. Qed.
