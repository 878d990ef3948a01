(** The linked lists of clocks, dividers and units refine plain lists. *)
From Verif Require Import CIntFacts ClockModel ListSpec DList Family.

Definition cn (h : heap) (p : ptr) := c_next (h_clock h p).
Definition cp (h : heap) (p : ptr) := c_prev (h_clock h p).
Definition dn (h : heap) (p : ptr) := d_next (h_div h p).
Definition dp (h : heap) (p : ptr) := d_prev (h_div h p).
Definition un (h : heap) (p : ptr) := u_next (h_unit h p).
Definition up (h : heap) (p : ptr) := u_prev (h_unit h p).

Definition rep_clocks (h : heap) (A : ptr -> list ptr) : Prop :=
  family (fun x => x <> 0) (cn h) (cp h) (fun c => Some (c_ctx (h_clock h c)))
         (fun x => x_firstClock (h_ctx h x)) (fun x => x_lastClock (h_ctx h x)) A.
Definition rep_divs (h : heap) (B : gid -> list ptr) : Prop :=
  family (fun _ => True) (dn h) (dp h) (fun d => d_group (h_div h d))
         (fun g => g_first (h_group h g)) (fun g => g_last (h_group h g)) B.
Definition rep_units (h : heap) (U : ptr -> list ptr) : Prop :=
  family (fun x => x <> 0) (un h) (up h) (fun c => Some (u_ctx (h_unit h c)))
         (fun x => x_firstUnit (h_ctx h x)) (fun x => x_lastUnit (h_ctx h x)) U.

Record rep (h : heap) (s : lists) : Prop := {
  rp_clocks : rep_clocks h (l_clocks s);
  rp_divs : rep_divs h (l_divs s);
  rp_units : rep_units h (l_units s) }.

(** Heaps that agree on all links. *)
Record clinks_eq (h h' : heap) : Prop := {
  ce_clock : forall p, c_ctx (h_clock h' p) = c_ctx (h_clock h p) /\ cn h' p = cn h p /\ cp h' p = cp h p;
  ce_ctx : forall x, x_firstClock (h_ctx h' x) = x_firstClock (h_ctx h x) /\ x_lastClock (h_ctx h' x) = x_lastClock (h_ctx h x) }.
Record dlinks_eq (h h' : heap) : Prop := {
  de_div : forall p, d_group (h_div h' p) = d_group (h_div h p) /\ dn h' p = dn h p /\ dp h' p = dp h p;
  de_group : forall g, h_group h' g = h_group h g }.
Record ulinks_eq (h h' : heap) : Prop := {
  ue_unit : forall p, u_ctx (h_unit h' p) = u_ctx (h_unit h p) /\ un h' p = un h p /\ up h' p = up h p;
  ue_ctx : forall x, x_firstUnit (h_ctx h' x) = x_firstUnit (h_ctx h x) /\ x_lastUnit (h_ctx h' x) = x_lastUnit (h_ctx h x) }.

Lemma rep_clocks_eq h h' A : rep_clocks h A -> clinks_eq h h' -> rep_clocks h' A.
Proof.
  intros R [E1 E2]. eapply family_ext; [exact R| |intros k _; apply E2].
  intros y. destruct (E1 y) as (X & Y & Z). rewrite X. auto.
Qed.

Lemma rep_divs_eq h h' B : rep_divs h B -> dlinks_eq h h' -> rep_divs h' B.
Proof.
  intros R [E1 E2]. eapply family_ext; [exact R| |intros k _; rewrite E2; auto].
  intros y. destruct (E1 y) as (X & Y & Z). auto.
Qed.

Lemma rep_units_eq h h' U : rep_units h U -> ulinks_eq h h' -> rep_units h' U.
Proof.
  intros R [E1 E2]. eapply family_ext; [exact R| |intros k _; apply E2].
  intros y. destruct (E1 y) as (X & Y & Z). rewrite X. auto.
Qed.

Lemma gid_eqb_spec a b : reflect (a = b) (gid_eqb a b).
Proof.
  destruct a, b; cbn; try (constructor; congruence);
    destruct (Z.eqb_spec c c0) + destruct (Z.eqb_spec ctx ctx0); subst; constructor; congruence.
Qed.

Ltac hsimpl := unfold cn, cp, dn, dp, un, up in *;
  cbn [h_clock h_div h_group h_unit h_ctx set_clock set_div set_group set_unit set_ctx
       c_ctx c_prev c_next c_period c_time c_nextTime c_counter c_cb
       d_group d_prev d_next d_cb d_divider d_counter g_first g_last
       u_ctx u_prev u_next u_time
       x_firstClock x_lastClock x_firstUnit x_lastUnit x_reset x_deltaTime x_currentTime
       clk_set_links clk_set_ctx clk_set_prev clk_set_next
       div_set_prev div_set_next div_set_group div_set_state
       ctx_set_clocks ctx_set_units ctx_set_reset ctx_set_time
       l_clocks l_divs l_units put_clocks put_divs put_units] in *.

Ltac pcase := unfold pupd, gupd in *;
  repeat (match goal with
          | |- context [?a =? ?b] => destruct (Z.eqb_spec a b); [try subst|]
          | |- context [gid_eqb ?a ?b] => destruct (gid_eqb_spec a b); [try subst|]
          end; hsimpl).

(** ** Resetting clocks does not change links *)
Lemma reset_dividers_ok : forall l h fuel p q, dseg (dn h) (dp h) p l 0 -> q = hd 0 l -> (length l <= fuel)%nat ->
  exists h', reset_dividers fuel h q = Ok h' /\ h_clock h' = h_clock h /\ h_group h' = h_group h /\
    h_unit h' = h_unit h /\ h_ctx h' = h_ctx h /\
    (forall y, d_group (h_div h' y) = d_group (h_div h y) /\ dn h' y = dn h y /\ dp h' y = dp h y /\
               d_cb (h_div h' y) = d_cb (h_div h y) /\ d_divider (h_div h' y) = d_divider (h_div h y) /\
               d_counter (h_div h' y) = if existsb (Z.eqb y) l then 0 else d_counter (h_div h y)).
Proof.
  induction l as [|a l IH]; intros h fuel p q H -> F.
  - exists h. split; [destruct fuel; reflexivity|]. repeat split; auto.
  - destruct H as (H0 & H1 & H2 & H3). destruct fuel as [|fuel]; [cbn in F; lia|].
    cbn [hd reset_dividers]. unfold NULL. replace (a =? 0) with false by lia.
    set (h1 := BKDividerReset h a).
    assert (L : forall y, d_group (h_div h1 y) = d_group (h_div h y) /\ dn h1 y = dn h y /\ dp h1 y = dp h y /\
                d_cb (h_div h1 y) = d_cb (h_div h y) /\ d_divider (h_div h1 y) = d_divider (h_div h y) /\
                d_counter (h_div h1 y) = if y =? a then 0 else d_counter (h_div h y)).
    { intros y. unfold h1, BKDividerReset. hsimpl. pcase; repeat split; reflexivity. }
    destruct (IH h1 fuel a (d_next (h_div h1 a))) as (h2 & E2 & G1 & G2 & G3 & G4 & G5).
    + apply (dseg_ext (dn h) (dp h)); [exact H3|]. intros y _. destruct (L y) as (_ & X & Y & _). auto.
    + destruct (L a) as (_ & X & _). unfold dn in X at 1. rewrite X. exact H2.
    + cbn in F; lia.
    + exists h2. split; [exact E2|]. split; [rewrite G1; reflexivity|]. split; [rewrite G2; reflexivity|].
      split; [rewrite G3; reflexivity|]. split; [rewrite G4; reflexivity|].
      intros y. destruct (L y) as (L1 & L2 & L3 & L4 & L5 & L6). destruct (G5 y) as (K1 & K2 & K3 & K4 & K5 & K6).
      repeat split; try congruence. rewrite K6, L6. cbn [existsb].
      destruct (y =? a); [destruct (existsb (Z.eqb y) l)|]; reflexivity.
Qed.

(** Effect of [BKClockReset]. *)
Lemma clock_reset_ok fuel h p B : rep_divs h B -> (length (B (GClock p)) <= fuel)%nat ->
  exists h', BKClockReset fuel h p = Ok h' /\ clinks_eq h h' /\ dlinks_eq h h' /\ ulinks_eq h h' /\
    (forall y, y <> p -> h_clock h' y = h_clock h y) /\
    (let c := h_clock h p in h_clock h' p = mk_clock (c_ctx c) (c_prev c) (c_next c) (c_period c) 0 0 0 (c_cb c)) /\
    (forall x, x_deltaTime (h_ctx h' x) = x_deltaTime (h_ctx h x) /\ x_currentTime (h_ctx h' x) = x_currentTime (h_ctx h x)).
Proof.
  intros [R1 R2] F. unfold BKClockReset.
  set (ctx := c_ctx (h_clock h p)).
  set (h0 := if negb (ctx =? NULL) then set_ctx h ctx (ctx_set_reset (h_ctx h ctx) true) else h).
  assert (H0c : h_clock h0 = h_clock h) by (unfold h0; destruct (negb (ctx =? NULL)); reflexivity).
  assert (H0d : h_div h0 = h_div h) by (unfold h0; destruct (negb (ctx =? NULL)); reflexivity).
  assert (H0g : h_group h0 = h_group h) by (unfold h0; destruct (negb (ctx =? NULL)); reflexivity).
  assert (H0u : h_unit h0 = h_unit h) by (unfold h0; destruct (negb (ctx =? NULL)); reflexivity).
  assert (H0x : forall x, x_firstClock (h_ctx h0 x) = x_firstClock (h_ctx h x) /\
     x_lastClock (h_ctx h0 x) = x_lastClock (h_ctx h x) /\ x_firstUnit (h_ctx h0 x) = x_firstUnit (h_ctx h x) /\
     x_lastUnit (h_ctx h0 x) = x_lastUnit (h_ctx h x) /\ x_deltaTime (h_ctx h0 x) = x_deltaTime (h_ctx h x) /\
     x_currentTime (h_ctx h0 x) = x_currentTime (h_ctx h x)).
  { intros x. unfold h0. destruct (negb (ctx =? NULL)); [|repeat split]. hsimpl. pcase; repeat split; reflexivity. }
  destruct (R1 (GClock p) I) as (D1 & D2 & D3 & D4).
  destruct (reset_dividers_ok (B (GClock p)) h0 fuel 0 (g_first (h_group h0 (GClock p)))) as (h1 & E1 & G1 & G2 & G3 & G4 & G5).
  - unfold dn, dp. rewrite H0d. exact D3.
  - rewrite H0g. exact D1.
  - exact F.
  - rewrite E1. cbn [bind]. eexists. split; [reflexivity|].
    split; [|split; [|split; [|split; [|split]]]].
    + split.
      * intros y. hsimpl. rewrite G1, H0c. pcase; repeat split; reflexivity.
      * intros x. hsimpl. rewrite G4. destruct (H0x x) as (X1 & X2 & _). auto.
    + split.
      * intros y. hsimpl. destruct (G5 y) as (K1 & K2 & K3 & _). rewrite H0d in *. auto.
      * intros g. hsimpl. rewrite G2, H0g. reflexivity.
    + split.
      * intros y. hsimpl. rewrite G3, H0u. auto.
      * intros x. hsimpl. rewrite G4. destruct (H0x x) as (_ & _ & X1 & X2 & _). auto.
    + intros y Hy. hsimpl. rewrite G1, H0c. pcase; congruence.
    + cbv zeta. hsimpl. unfold pupd. rewrite Z.eqb_refl. rewrite G1, H0c. reflexivity.
    + intros x. hsimpl. rewrite G4. destruct (H0x x) as (_ & _ & _ & _ & X1 & X2). auto.
Qed.

(** ** Clocks *)

Lemma not_attached h A c : rep_clocks h A -> c <> 0 -> (forall y, y <> 0 -> ~ In c (A y)) -> c_ctx (h_clock h c) = 0.
Proof.
  intros [R1 R2] Hc N. destruct (Z.eq_dec (c_ctx (h_clock h c)) 0) as [E|E]; [exact E|].
  exfalso. apply (N _ E). apply R2; auto.
Qed.

Lemma attached h A c y : rep_clocks h A -> y <> 0 -> In c (A y) -> c_ctx (h_clock h c) = y /\ c <> 0.
Proof. intros [R1 R2] Hy I. apply R2 in I; auto. destruct I. split; congruence. Qed.

Lemma zdec (a b : Z) : a = b \/ a <> b.
Proof. lia. Qed.

(** First part of [BKClockAttach]: context set and clock reset. *)
Lemma attach_start fuel h s c x : rep h s -> c <> 0 -> x <> 0 ->
  (forall y, y <> 0 -> ~ In c (l_clocks s y)) -> (length (l_divs s (GClock c)) <= fuel)%nat ->
  exists h1, BKClockReset fuel (set_clock h c (clk_set_ctx (h_clock h c) x)) c = Ok h1 /\
    (forall y, y <> c -> c_ctx (h_clock h1 y) = c_ctx (h_clock h y)) /\ c_ctx (h_clock h1 c) = x /\
    (forall y, cn h1 y = cn h y /\ cp h1 y = cp h y) /\
    (forall y, x_firstClock (h_ctx h1 y) = x_firstClock (h_ctx h y) /\ x_lastClock (h_ctx h1 y) = x_lastClock (h_ctx h y)) /\
    rep_divs h1 (l_divs s) /\ rep_units h1 (l_units s).
Proof.
  intros [RC RD RU] Hc Hx N F. set (h0 := set_clock h c (clk_set_ctx (h_clock h c) x)).
  assert (RD0 : rep_divs h0 (l_divs s)) by (apply (rep_divs_eq h); [exact RD|]; split; intros; unfold h0; hsimpl; auto).
  assert (RU0 : rep_units h0 (l_units s)) by (apply (rep_units_eq h); [exact RU|]; split; intros; unfold h0; hsimpl; auto).
  destruct (clock_reset_ok fuel h0 c (l_divs s) RD0 F) as (h1 & E & C1 & C2 & C3 & _).
  exists h1. split; [exact E|]. destruct C1 as [C1 C1'].
  assert (L : forall y, c_ctx (h_clock h0 y) = (if y =? c then x else c_ctx (h_clock h y)) /\ cn h0 y = cn h y /\ cp h0 y = cp h y).
  { intros y. unfold h0. hsimpl. pcase; repeat split; reflexivity. }
  split; [|split; [|split; [|split; [|split]]]].
  - intros y Hy. destruct (C1 y) as (-> & _). destruct (L y) as (-> & _). replace (y =? c) with false by lia. reflexivity.
  - destruct (C1 c) as (-> & _). destruct (L c) as (-> & _). rewrite Z.eqb_refl. reflexivity.
  - intros y. destruct (C1 y) as (_ & -> & ->). destruct (L y) as (_ & -> & ->). auto.
  - intros y. destruct (C1' y) as (-> & ->). auto.
  - apply (rep_divs_eq h0); assumption.
  - apply (rep_units_eq h0); assumption.
Qed.

Lemma rep_divs_same h h' B : rep_divs h B -> h_div h' = h_div h -> h_group h' = h_group h -> rep_divs h' B.
Proof. intros R E1 E2. apply (rep_divs_eq h); [exact R|]. split; intros; unfold dn, dp; rewrite ?E1, ?E2; auto. Qed.

Lemma rep_units_same h h' U : rep_units h U -> h_unit h' = h_unit h ->
  (forall x, x_firstUnit (h_ctx h' x) = x_firstUnit (h_ctx h x) /\ x_lastUnit (h_ctx h' x) = x_lastUnit (h_ctx h x)) -> rep_units h' U.
Proof. intros R E1 E2. apply (rep_units_eq h); [exact R|]. split; [|exact E2]. intros; unfold un, up; rewrite E1; auto. Qed.

Lemma rep_clocks_same h h' A : rep_clocks h A -> h_clock h' = h_clock h ->
  (forall x, x_firstClock (h_ctx h' x) = x_firstClock (h_ctx h x) /\ x_lastClock (h_ctx h' x) = x_lastClock (h_ctx h x)) -> rep_clocks h' A.
Proof. intros R E1 E2. apply (rep_clocks_eq h); [exact R|]. split; [|exact E2]. intros; unfold cn, cp; rewrite E1; auto. Qed.

Lemma clock_attach_last fuel h s c x : rep h s -> c <> 0 -> x <> 0 ->
  (forall y, y <> 0 -> ~ In c (l_clocks s y)) -> (length (l_divs s (GClock c)) <= fuel)%nat ->
  forall b, b = NULL \/ (b = BK_FIRST_ELEMENT_PTR /\ l_clocks s x = []) ->
  exists h', BKClockAttach fuel h c x b = Ok (h', 0) /\ rep h' (put_clocks s x (l_clocks s x ++ [c])).
Proof.
  intros R Hc Hx N F b Hb. destruct (attach_start fuel h s c x R Hc Hx N F) as (h1 & E1 & A1 & A2 & A3 & A4 & A5 & A6).
  destruct R as [RC RD RU]. unfold BKClockAttach, NULL.
  rewrite (not_attached h _ c RC Hc N). cbn [Z.eqb]. rewrite E1. cbn [bind].
  unfold nonnull, NULL. replace (x =? 0) with false by lia. cbn [bind].
  destruct (fam_dll _ _ _ _ _ _ _ RC x Hx) as (D1 & D2 & D3 & D4).
  assert (B0 : (if b =? BK_FIRST_ELEMENT_PTR then x_firstClock (h_ctx h1 x) else b) = 0).
  { destruct Hb as [->|(-> & L)]; [reflexivity|]. cbn. destruct (A4 x) as (-> & _). rewrite D1, L. reflexivity. }
  rewrite B0. cbn [Z.eqb].
  set (last := x_lastClock (h_ctx h1 x)).
  assert (EL : last = List.last (l_clocks s x) 0) by (unfold last; destruct (A4 x) as (_ & ->); exact D2).
  eexists. split; [reflexivity|].
  assert (NI := N x Hx).
  assert (LC : last <> c).
  { rewrite EL. intros EQ. destruct (last_in_or_zero (l_clocks s x)) as [Z0|I0]; [lia|]. rewrite EQ in I0. contradiction. }
  split; [| |].
  - destruct (negb (last =? 0)) eqn:LZ.
    + apply (family_insert _ (cn h) (cp h) _ _ (fun y => Some (c_ctx (h_clock h y))) _
        (fun x => x_firstClock (h_ctx h x)) (fun x => x_lastClock (h_ctx h x)) _ _ (l_clocks s) _ x c (l_clocks s x) []); auto.
      * symmetry; apply app_nil_r.
      * hsimpl. rewrite Z.eqb_refl. reflexivity.
      * intros y Hy. hsimpl. replace (y =? x) with false by lia. reflexivity.
      * intros y; apply zdec.
      * hsimpl. unfold pupd. rewrite Z.eqb_refl. replace (c =? last) with false by lia. reflexivity.
      * hsimpl. unfold pupd. rewrite Z.eqb_refl. replace (c =? last) with false by lia. exact EL.
      * hsimpl. unfold pupd. rewrite Z.eqb_refl. replace (c =? last) with false by lia. f_equal. exact A2.
      * intros y Hy. hsimpl. unfold pupd. replace (y =? c) with false by lia. replace (last =? c) with false by lia.
        destruct (Z.eqb_spec y last) as [->|NE]; hsimpl; rewrite A1; auto.
      * intros y Hy. rewrite <- EL. destruct (A3 y) as (A3a & A3b). hsimpl. unfold pupd. replace (y =? c) with false by lia. replace (last =? c) with false by lia.
        destruct (Z.eqb_spec y last) as [->|NE]; hsimpl; [rewrite LZ|]; auto.
      * intros y Hy. destruct (A3 y) as (A3a & A3b). cbn [hd]. replace ((y =? 0) && negb (y =? 0)) with false by (destruct (y =? 0); reflexivity).
        hsimpl. unfold pupd. replace (y =? c) with false by lia. replace (last =? c) with false by lia.
        destruct (Z.eqb_spec y last) as [->|NE]; hsimpl; auto.
      * intros y Hy NE. hsimpl. unfold pupd. replace (y =? x) with false by lia. apply A4.
      * hsimpl. unfold pupd. rewrite Z.eqb_refl. hsimpl. destruct (A4 x) as (-> & _). rewrite D1.
        destruct (l_clocks s x); [cbn in EL; lia|reflexivity].
      * hsimpl. unfold pupd. rewrite Z.eqb_refl. reflexivity.
    + assert (LE : l_clocks s x = []).
      { destruct (l_clocks s x) as [|a l] eqn:LL; [reflexivity|]. exfalso.
        assert (I0 : In last (a :: l)) by (rewrite EL; apply last_In; congruence).
        assert (last <> 0) by (exact (dseg_nonnull _ _ _ _ _ _ D3 I0)). lia. }
      apply (family_insert _ (cn h) (cp h) _ _ (fun y => Some (c_ctx (h_clock h y))) _
        (fun x => x_firstClock (h_ctx h x)) (fun x => x_lastClock (h_ctx h x)) _ _ (l_clocks s) _ x c [] []); auto.
      * hsimpl. rewrite Z.eqb_refl, LE. reflexivity.
      * intros y Hy. hsimpl. replace (y =? x) with false by lia. reflexivity.
      * intros y; apply zdec.
      * hsimpl. unfold pupd. rewrite Z.eqb_refl. reflexivity.
      * hsimpl. unfold pupd. rewrite Z.eqb_refl. rewrite EL, LE. reflexivity.
      * hsimpl. unfold pupd. rewrite Z.eqb_refl. hsimpl. f_equal. exact A2.
      * intros y Hy. hsimpl. unfold pupd. replace (y =? c) with false by lia. rewrite A1; auto.
      * intros y Hy. destruct (A3 y) as (A3a & A3b). cbn [List.last]. replace ((y =? 0) && negb (y =? 0)) with false by (destruct (y =? 0); reflexivity).
        hsimpl. unfold pupd. replace (y =? c) with false by lia. auto.
      * intros y Hy. destruct (A3 y) as (A3a & A3b). cbn [hd]. replace ((y =? 0) && negb (y =? 0)) with false by (destruct (y =? 0); reflexivity).
        hsimpl. unfold pupd. replace (y =? c) with false by lia. auto.
      * intros y Hy NE. hsimpl. unfold pupd. replace (y =? x) with false by lia. apply A4.
      * hsimpl. unfold pupd. rewrite Z.eqb_refl. reflexivity.
      * hsimpl. unfold pupd. rewrite Z.eqb_refl. reflexivity.
  - cbn [l_divs put_clocks]. apply (rep_divs_same h1); [exact A5| |]; destruct (negb (last =? 0)); reflexivity.
  - cbn [l_units put_clocks]. apply (rep_units_same h1); [exact A6|destruct (negb (last =? 0)); reflexivity|].
    intros y. destruct (negb (last =? 0)); hsimpl; pcase; auto.
Qed.

Lemma clock_attach_before fuel h s c x b l1 l2 : rep h s -> c <> 0 -> x <> 0 ->
  (forall y, y <> 0 -> ~ In c (l_clocks s y)) -> (length (l_divs s (GClock c)) <= fuel)%nat ->
  l_clocks s x = l1 ++ b :: l2 ->
  forall b', (b' = b /\ b <> BK_FIRST_ELEMENT_PTR) \/ (b' = BK_FIRST_ELEMENT_PTR /\ l1 = []) ->
  exists h', BKClockAttach fuel h c x b' = Ok (h', 0) /\ rep h' (put_clocks s x (l1 ++ c :: b :: l2)).
Proof.
  intros R Hc Hx N F EL b' Hb. destruct (attach_start fuel h s c x R Hc Hx N F) as (h1 & E1 & A1 & A2 & A3 & A4 & A5 & A6).
  destruct R as [RC RD RU]. unfold BKClockAttach, NULL.
  rewrite (not_attached h _ c RC Hc N). cbn [Z.eqb]. rewrite E1. cbn [bind].
  unfold nonnull, NULL. replace (x =? 0) with false by lia. cbn [bind].
  destruct (family_around _ _ _ _ _ _ _ x b l1 l2 RC Hx EL) as (B1 & B2 & B3 & B4 & B5 & B6 & B7 & B8 & B9 & B10).
  injection B4 as B4'.
  assert (NI := N x Hx). rewrite EL, in_app_iff in NI. cbn [In] in NI.
  assert (BC : b <> c) by (intros ->; tauto).
  assert (B0 : (if b' =? BK_FIRST_ELEMENT_PTR then x_firstClock (h_ctx h1 x) else b') = b).
  { destruct Hb as [(-> & Nb)|(-> & L)].
    - replace (b =? BK_FIRST_ELEMENT_PTR) with false by lia. reflexivity.
    - rewrite Z.eqb_refl. destruct (A4 x) as (-> & _). rewrite B9, L. reflexivity. }
  rewrite B0. replace (b =? 0) with false by lia. rewrite (A1 b BC), B4', Z.eqb_refl.
  set (prev := List.last l1 0) in *.
  assert (CPB : c_prev (h_clock h1 b) = prev) by (destruct (A3 b) as (_ & K); unfold cp in K, B1; congruence).
  rewrite CPB.
  hsimpl. unfold pupd at 1. replace (b =? c) with false by lia. rewrite CPB.
  destruct (A4 x) as (FX & LX). rewrite FX, B9.
  assert (PC : prev <> c).
  { unfold prev. intros EQ. destruct (last_in_or_zero l1) as [Z0|I0]; [lia|]. rewrite EQ in I0. tauto. }
  assert (PB : prev <> b).
  { unfold prev. intros EQ. destruct (last_in_or_zero l1) as [Z0|I0]; [lia|]. rewrite EQ in I0. tauto. }
  assert (FIN : forall h', 
     (forall y, h_div h' y = h_div h1 y) -> h_div h' = h_div h1 -> h_group h' = h_group h1 -> h_unit h' = h_unit h1 ->
     (forall y, y <> x -> h_ctx h' y = h_ctx h1 y) ->
     x_firstUnit (h_ctx h' x) = x_firstUnit (h_ctx h1 x) -> x_lastUnit (h_ctx h' x) = x_lastUnit (h_ctx h1 x) ->
     x_firstClock (h_ctx h' x) = hd c l1 -> x_lastClock (h_ctx h' x) = x_lastClock (h_ctx h1 x) ->
     (forall y, c_ctx (h_clock h' y) = c_ctx (h_clock h1 y)) ->
     cn h' c = b -> cp h' c = prev ->
     (forall y, y <> c -> cn h' y = if (y =? prev) && negb (y =? 0) then c else cn h1 y) ->
     (forall y, y <> c -> cp h' y = if (y =? b) then c else cp h1 y) ->
     rep h' (put_clocks s x (l1 ++ c :: b :: l2))).
  { intros h' _ G1 G2 G3 G4 G5 G6 G7 G8 G9 G10 G11 G12 G13. unfold cn, cp in *. split.
    - apply (family_insert _ (cn h) (cp h) _ _ (fun y => Some (c_ctx (h_clock h y))) _
        (fun x => x_firstClock (h_ctx h x)) (fun x => x_lastClock (h_ctx h x)) _ _ (l_clocks s) _ x c l1 (b :: l2)); auto.
      + cbn [put_clocks l_clocks]. rewrite Z.eqb_refl. reflexivity.
      + intros y Hy. cbn [put_clocks l_clocks]. replace (y =? x) with false by lia. reflexivity.
      + intros y; apply zdec.
      + rewrite G9, A2. reflexivity.
      + intros y Hy. rewrite G9, A1 by exact Hy. reflexivity.
      + intros y Hy. unfold cn. rewrite G12 by exact Hy. destruct (A3 y) as (K1 & _). fold prev. rewrite K1. reflexivity.
      + intros y Hy. unfold cp. rewrite G13 by exact Hy. cbn [hd]. destruct (A3 y) as (_ & K1). rewrite K1.
        destruct (Z.eqb_spec y b) as [->|]; [replace (b =? 0) with false by lia|]; reflexivity.
      + intros y _ Hy. rewrite G4 by exact Hy. apply A4.
      + rewrite G8, LX. rewrite B10. symmetry. apply last_cons_ne.
    - cbn [put_clocks l_divs]. apply (rep_divs_same h1); assumption.
    - cbn [put_clocks l_units]. apply (rep_units_same h1); auto. intros y. destruct (Z.eq_dec y x) as [->|NE]; [auto|].
      rewrite G4 by exact NE. auto. }
  destruct (list_eq_dec Z.eq_dec l1 []) as [L1|L1].
  - subst l1. cbn [hd]. rewrite Z.eqb_refl. cbn [bind]. eexists. split; [reflexivity|].
    apply FIN; hsimpl; unfold pupd; rewrite ?Z.eqb_refl; hsimpl; auto.
    + intros y Hy. replace (y =? x) with false by lia. reflexivity.
    + intros y. destruct (Z.eqb_spec y b) as [->|]; [replace (b =? c) with false by lia; reflexivity|].
      destruct (Z.eqb_spec y c) as [->|]; hsimpl; auto.
    + replace (c =? b) with false by lia. reflexivity.
    + replace (c =? b) with false by lia. reflexivity.
    + intros y Hy. unfold prev. cbn [List.last]. replace ((y =? 0) && negb (y =? 0)) with false by (destruct (y =? 0); reflexivity).
      destruct (Z.eqb_spec y b) as [->|]; [replace (b =? c) with false by lia; reflexivity|].
      replace (y =? c) with false by lia. reflexivity.
    + intros y Hy. destruct (Z.eqb_spec y b) as [->|]; [reflexivity|].
      replace (y =? c) with false by lia. reflexivity.
  - assert (PI : In prev l1) by (unfold prev; apply last_In; exact L1).
    assert (P0 : prev <> 0) by (apply B8; left; exact PI).
    assert (HI : In (hd b l1) l1) by (clear - L1; destruct l1; [congruence|left; reflexivity]).
    replace (b =? hd b l1) with false by (destruct (Z.eqb_spec b (hd b l1)) as [Q|]; [rewrite <- Q in HI; tauto|reflexivity]).
    replace (prev =? 0) with false by lia. cbn [bind]. assert (BCF : (b =? c) = false) by lia.
    eexists. split; [reflexivity|].
    apply FIN; hsimpl; unfold pupd; rewrite ?Z.eqb_refl, ?BCF, ?CPB; hsimpl; auto.
    + rewrite FX, B9. clear - L1. destruct l1; [congruence|reflexivity].
    + intros y. replace (b =? prev) with false by lia. replace (prev =? c) with false by lia.
      destruct (Z.eqb_spec y b) as [->|]; [reflexivity|].
      destruct (Z.eqb_spec y prev) as [->|]; [reflexivity|].
      destruct (Z.eqb_spec y c) as [->|]; hsimpl; auto.
    + replace (c =? b) with false by lia. replace (c =? prev) with false by lia. reflexivity.
    + replace (c =? b) with false by lia. replace (c =? prev) with false by lia. reflexivity.
    + intros y Hy. replace (b =? prev) with false by lia. replace (prev =? c) with false by lia.
      destruct (Z.eqb_spec y b) as [->|]; [replace (b =? prev) with false by lia; reflexivity|].
      replace (y =? c) with false by lia.
      destruct (Z.eqb_spec y prev) as [->|]; [replace (prev =? 0) with false by lia; reflexivity|]. reflexivity.
    + intros y Hy. replace (b =? prev) with false by lia. replace (prev =? c) with false by lia.
      destruct (Z.eqb_spec y b) as [->|]; [reflexivity|]. replace (y =? c) with false by lia.
      destruct (Z.eqb_spec y prev) as [->|]; reflexivity.
Qed.

Lemma clock_detach_ok fuel h s c x l1 l2 : rep h s -> x <> 0 -> l_clocks s x = l1 ++ c :: l2 ->
  (length (l_divs s (GClock c)) <= fuel)%nat ->
  exists h', BKClockDetach fuel h c = Ok h' /\ rep h' (put_clocks s x (l1 ++ l2)).
Proof.
  intros [RC RD RU] Hx EL F.
  destruct (family_around _ _ _ _ _ _ _ x c l1 l2 RC Hx EL) as (B1 & B2 & B3 & B4 & B5 & B6 & B7 & B8 & B9 & B10).
  injection B4 as B4'.
  unfold BKClockDetach. rewrite B4'. unfold NULL. replace (x =? 0) with false by lia. cbn [negb].
  unfold cp in B1. unfold cn in B2. rewrite B1, B2.
  set (prev := List.last l1 0) in *. set (next := hd 0 l2) in *.
  set (h2 := if negb (prev =? 0) then _ else _).
  set (h3 := if negb (next =? 0) then _ else _).
  set (h4 := set_clock h3 c _).
  assert (PC : prev <> c) by (unfold prev; intros EQ; destruct (last_in_or_zero l1) as [Z0|I0]; [lia|rewrite EQ in I0; tauto]).
  assert (NC : next <> c) by (unfold next; intros EQ; destruct (hd_in_or_zero l2) as [Z0|I0]; [lia|rewrite EQ in I0; tauto]).
  assert (PN : prev = 0 \/ next = 0 \/ prev <> next).
  { unfold prev, next. destruct (last_in_or_zero l1) as [Z0|I0]; [auto|]. destruct (hd_in_or_zero l2) as [Z1|I1]; [auto|].
    right; right. intros EQ. rewrite EQ in I0. exact (B7 _ I0 I1). }
  assert (P0 : prev = 0 <-> l1 = []).
  { unfold prev. destruct l1 as [|a l]; [tauto|]. split; [|congruence]. intros Z0. exfalso.
    apply (B8 (List.last (a :: l) 0)); [left; apply last_In; congruence|exact Z0]. }
  assert (N0 : next = 0 <-> l2 = []).
  { unfold next. destruct l2 as [|a l]; [tauto|]. split; [|congruence]. intros Z0. exfalso.
    apply (B8 a); [right; left; reflexivity|exact Z0]. }
  assert (H2c : forall y, h_clock h2 y = if (y =? prev) && negb (y =? 0) then clk_set_next (h_clock h y) next else h_clock h y).
  { intros y. unfold h2. destruct (Z.eqb_spec prev 0) as [Z0|Z0]; cbn [negb]; hsimpl.
    - rewrite Z0. replace ((y =? 0) && negb (y =? 0)) with false by (destruct (y =? 0); reflexivity). reflexivity.
    - unfold pupd. destruct (Z.eqb_spec y prev) as [->|]; [replace (prev =? 0) with false by lia|]; reflexivity. }
  assert (H3c : forall y, h_clock h3 y = if (y =? next) && negb (y =? 0) then clk_set_prev (h_clock h2 y) prev else h_clock h2 y).
  { intros y. unfold h3. destruct (Z.eqb_spec next 0) as [Z0|Z0]; cbn [negb]; hsimpl.
    - rewrite Z0. replace ((y =? 0) && negb (y =? 0)) with false by (destruct (y =? 0); reflexivity). reflexivity.
    - unfold pupd. destruct (Z.eqb_spec y next) as [->|]; [replace (next =? 0) with false by lia|]; reflexivity. }
  assert (HX : forall y, y <> x -> h_ctx h3 y = h_ctx h y).
  { intros y Hy. unfold h3, h2. destruct (negb (next =? 0)); destruct (negb (prev =? 0)); hsimpl; unfold pupd;
      replace (y =? x) with false by lia; reflexivity. }
  assert (HXu : x_firstUnit (h_ctx h3 x) = x_firstUnit (h_ctx h x) /\ x_lastUnit (h_ctx h3 x) = x_lastUnit (h_ctx h x)).
  { unfold h3, h2. destruct (negb (next =? 0)); destruct (negb (prev =? 0)); hsimpl; unfold pupd; rewrite ?Z.eqb_refl; hsimpl;
      rewrite ?Z.eqb_refl; auto. }
  assert (HXf : x_firstClock (h_ctx h3 x) = if prev =? 0 then next else x_firstClock (h_ctx h x)).
  { unfold h3, h2. destruct (next =? 0); destruct (prev =? 0); cbn [negb]; hsimpl; unfold pupd; rewrite ?Z.eqb_refl; hsimpl;
      rewrite ?Z.eqb_refl; reflexivity. }
  assert (HXl : x_lastClock (h_ctx h3 x) = if next =? 0 then prev else x_lastClock (h_ctx h x)).
  { unfold h3, h2. destruct (next =? 0); destruct (prev =? 0); cbn [negb]; hsimpl; unfold pupd; rewrite ?Z.eqb_refl; hsimpl;
      rewrite ?Z.eqb_refl; reflexivity. }
  assert (HDG : h_div h4 = h_div h /\ h_group h4 = h_group h /\ h_unit h4 = h_unit h /\ h_ctx h4 = h_ctx h3).
  { unfold h4, h3, h2. destruct (negb (next =? 0)); destruct (negb (prev =? 0)); repeat split; reflexivity. }
  destruct HDG as (HD & HG & HU & HC).
  assert (H4c : forall y, y <> c -> h_clock h4 y = h_clock h3 y) by (intros y Hy; unfold h4; hsimpl; unfold pupd; replace (y =? c) with false by lia; reflexivity).
  assert (R4 : rep h4 (put_clocks s x (l1 ++ l2))).
  { split.
    - apply (family_remove _ (cn h) (cp h) _ _ (fun y => Some (c_ctx (h_clock h y))) _
        (fun x => x_firstClock (h_ctx h x)) (fun x => x_lastClock (h_ctx h x)) _ _ (l_clocks s) _ x c l1 l2); auto.
      + cbn [put_clocks l_clocks]. rewrite Z.eqb_refl. reflexivity.
      + intros y Hy. cbn [put_clocks l_clocks]. replace (y =? x) with false by lia. reflexivity.
      + intros y; apply zdec.
      + intros k Hk. unfold h4. hsimpl. unfold pupd. rewrite Z.eqb_refl. hsimpl. congruence.
      + intros y Hy. rewrite H4c, H3c, H2c by exact Hy.
        destruct ((y =? next) && negb (y =? 0)); destruct ((y =? prev) && negb (y =? 0)); reflexivity.
      + intros y Hy. unfold cn. rewrite H4c, H3c, H2c by exact Hy. fold prev next.
        destruct ((y =? next) && negb (y =? 0)); destruct ((y =? prev) && negb (y =? 0)); reflexivity.
      + intros y Hy. unfold cp. rewrite H4c, H3c, H2c by exact Hy. fold prev next.
        destruct ((y =? next) && negb (y =? 0)); destruct ((y =? prev) && negb (y =? 0)); reflexivity.
      + intros y Hy NE. rewrite HC, HX by exact NE. auto.
      + rewrite HC, HXf, B9, hd_app_ne. fold next. destruct (Z.eqb_spec prev 0) as [Z0|Z0].
        * apply P0 in Z0. rewrite Z0. reflexivity.
        * destruct l1; [exfalso; apply Z0; reflexivity|reflexivity].
      + rewrite HC, HXl, B10. destruct (Z.eqb_spec next 0) as [Z0|Z0].
        * apply N0 in Z0. rewrite Z0, app_nil_r. reflexivity.
        * destruct l2 as [|a l2']; [exfalso; apply Z0; reflexivity|]. rewrite last_app_cons, last_cons_ne. reflexivity.
    - cbn [put_clocks l_divs]. apply (rep_divs_same h); assumption.
    - cbn [put_clocks l_units]. apply (rep_units_same h); auto. intros y. rewrite HC.
      destruct (Z.eq_dec y x) as [->|NE]; [exact HXu|]. rewrite HX by exact NE. auto. }
  destruct (clock_reset_ok fuel h4 c (l_divs s) (rp_divs _ _ R4) F) as (h5 & E5 & C1 & C2 & C3 & _).
  exists h5. split; [exact E5|]. destruct R4 as [R41 R42 R43].
  split; [eapply rep_clocks_eq|eapply rep_divs_eq|eapply rep_units_eq]; eauto.
Qed.

Lemma and_neg_zero (y : Z) : (y =? 0) && negb (y =? 0) = false.
Proof. destruct (y =? 0); reflexivity. Qed.

(** Facts about the neighbours of a list element. *)
Lemma around_facts (l1 l2 : list Z) c : ~ In c l1 -> ~ In c l2 -> c <> 0 -> (forall y, In y l1 -> ~ In y l2) ->
  (forall y, In y l1 \/ In y l2 -> y <> 0) ->
  List.last l1 0 <> c /\ hd 0 l2 <> c /\ (List.last l1 0 = 0 \/ hd 0 l2 = 0 \/ List.last l1 0 <> hd 0 l2) /\
  (List.last l1 0 = 0 <-> l1 = []) /\ (hd 0 l2 = 0 <-> l2 = []).
Proof.
  intros B5 B6 B3 B7 B8. split; [|split; [|split; [|split]]].
  - intros EQ; destruct (last_in_or_zero l1) as [Z0|I0]; [lia|rewrite EQ in I0; tauto].
  - intros EQ; destruct (hd_in_or_zero l2) as [Z0|I0]; [lia|rewrite EQ in I0; tauto].
  - destruct (last_in_or_zero l1) as [Z0|I0]; [auto|]. destruct (hd_in_or_zero l2) as [Z1|I1]; [auto|].
    right; right. intros EQ. rewrite EQ in I0. exact (B7 _ I0 I1).
  - destruct l1 as [|a l]; [tauto|]. split; [|congruence]. intros Z0. exfalso.
    apply (B8 (List.last (a :: l) 0)); [left; apply last_In; congruence|exact Z0].
  - destruct l2 as [|a l]; [tauto|]. split; [|congruence]. intros Z0. exfalso.
    apply (B8 a); [right; left; reflexivity|exact Z0].
Qed.

(** ** Dividers *)

Lemma gid_dec (a b : gid) : a = b \/ a <> b.
Proof. destruct (gid_eqb_spec a b); auto. Qed.

Lemma gid_eqb_refl g : gid_eqb g g = true.
Proof. destruct (gid_eqb_spec g g); congruence. Qed.

Lemma gid_eqb_ne a b : a <> b -> gid_eqb a b = false.
Proof. destruct (gid_eqb_spec a b); congruence. Qed.

Lemma div_attach_ok h s d g : rep h s -> d <> 0 -> (forall y, ~ In d (l_divs s y)) ->
  exists h', BKDividerAttachToGroup h d g = Ok (h', 0) /\ rep h' (put_divs s g (l_divs s g ++ [d])).
Proof.
  intros [RC RD RU] Hd N.
  assert (G0 : d_group (h_div h d) = None).
  { destruct (d_group (h_div h d)) as [k|] eqn:E; [|reflexivity]. exfalso. apply (N k). apply (fam_mem _ _ _ _ _ _ _ RD); auto. }
  unfold BKDividerAttachToGroup. rewrite G0.
  destruct (fam_dll _ _ _ _ _ _ _ RD g I) as (D1 & D2 & D3 & D4).
  set (last := g_last (h_group h g)) in *. unfold NULL.
  set (h0 := set_div h d _). set (h1 := if negb (last =? 0) then _ else _). set (h2 := set_group h1 g _). 
  eexists. split; [reflexivity|]. set (h3 := set_div h2 d _).
  assert (NI := N g).
  assert (LC : last <> d).
  { rewrite D2. intros EQ. destruct (last_in_or_zero (l_divs s g)) as [Z0|I0]; [lia|]. rewrite EQ in I0. contradiction. }
  assert (L0 : last = 0 <-> l_divs s g = []).
  { rewrite D2. destruct (l_divs s g) as [|a l] eqn:LL; [tauto|]. split; [|congruence]. intros Z0. exfalso.
    exact (dseg_nonnull _ _ _ _ _ _ D3 (last_In (a :: l) 0 ltac:(congruence)) Z0). }
  assert (V1 : forall y, y <> d -> h_div h3 y = if (y =? last) && negb (y =? 0) then div_set_next (h_div h y) d else h_div h y).
  { intros y Hy. unfold h3, h2, h1, h0. destruct (Z.eqb_spec last 0) as [Z0|Z0]; cbn [negb]; hsimpl; unfold pupd;
      replace (y =? d) with false by lia.
    - rewrite Z0, and_neg_zero. reflexivity.
    - replace (last =? d) with false by lia. destruct (Z.eqb_spec y last) as [->|]; [replace (last =? 0) with false by lia|]; reflexivity. }
  assert (V2 : d_group (h_div h3 d) = Some g /\ dn h3 d = 0 /\ dp h3 d = last).
  { unfold h3, h2, h1, h0. destruct (Z.eqb_spec last 0) as [Z0|Z0]; cbn [negb]; hsimpl; unfold pupd; rewrite !Z.eqb_refl; hsimpl.
    - auto.
    - replace (d =? last) with false by lia. auto. }
  assert (V3 : forall y, y <> g -> h_group h3 y = h_group h y).
  { intros y Hy. unfold h3, h2, h1, h0. destruct (Z.eqb_spec last 0) as [Z0|Z0]; cbn [negb]; hsimpl; unfold gupd; rewrite ?(gid_eqb_ne y g) by exact Hy; reflexivity. }
  assert (V4 : g_first (h_group h3 g) = (if last =? 0 then d else g_first (h_group h g)) /\ g_last (h_group h3 g) = d).
  { unfold h3, h2, h1, h0. destruct (Z.eqb_spec last 0) as [Z0|Z0]; cbn [negb]; hsimpl; unfold gupd; rewrite !gid_eqb_refl; hsimpl; auto. }
  assert (V5 : h_clock h3 = h_clock h /\ h_unit h3 = h_unit h /\ h_ctx h3 = h_ctx h).
  { unfold h3, h2, h1, h0. destruct (negb (last =? 0)); auto. }
  destruct V5 as (V5 & V6 & V7). destruct V2 as (V2 & V2' & V2''). destruct V4 as (V4 & V4').
  split.
  - cbn [put_divs l_clocks]. apply (rep_clocks_same h); auto. intros; rewrite V7; auto.
  - apply (family_insert _ (dn h) (dp h) _ _ (fun y => d_group (h_div h y)) _
        (fun x => g_first (h_group h x)) (fun x => g_last (h_group h x)) _ _ (l_divs s) _ g d (l_divs s g) []); auto.
    + symmetry; apply app_nil_r.
    + cbn [put_divs l_divs]. rewrite gid_eqb_refl. reflexivity.
    + intros y Hy. cbn [put_divs l_divs]. rewrite gid_eqb_ne by exact Hy. reflexivity.
    + intros y; apply gid_dec.
    + rewrite <- D2. exact V2''.
    + intros y Hy. rewrite V1 by exact Hy. destruct (_ && _); reflexivity.
    + intros y Hy. unfold dn. rewrite V1, <- D2 by exact Hy. destruct (_ && _); reflexivity.
    + intros y Hy. unfold dp. rewrite V1 by exact Hy. cbn [hd]. rewrite and_neg_zero. destruct (_ && _); reflexivity.
    + intros y _ Hy. rewrite V3 by exact Hy. auto.
    + rewrite V4, D1. destruct (Z.eqb_spec last 0) as [Z0|Z0].
      * apply L0 in Z0. rewrite Z0. reflexivity.
      * destruct (l_divs s g); [exfalso; apply Z0, L0; reflexivity|reflexivity].
  - cbn [put_divs l_units]. apply (rep_units_same h); auto. intros; rewrite V7; auto.
Qed.

Lemma div_detach_ok h s d g l1 l2 : rep h s -> l_divs s g = l1 ++ d :: l2 ->
  rep (BKDividerDetach h d) (put_divs s g (l1 ++ l2)) /\
  (forall y, y <> d -> d_counter (h_div (BKDividerDetach h d) y) = d_counter (h_div h y)).
Proof.
  intros [RC RD RU] EL.
  destruct (family_around _ _ _ _ _ _ _ g d l1 l2 RD I EL) as (B1 & B2 & B3 & B4 & B5 & B6 & B7 & B8 & B9 & B10).
  unfold BKDividerDetach. rewrite B4. unfold NULL.
  unfold dp in B1. unfold dn in B2. rewrite B1, B2.
  destruct (around_facts l1 l2 d B5 B6 B3 B7 B8) as (PC & NC & PN & P0 & N0).
  set (prev := List.last l1 0) in *. set (next := hd 0 l2) in *.
  set (h2 := if negb (prev =? 0) then _ else _).
  set (h3 := if negb (next =? 0) then _ else _).
  set (h4 := set_div h3 d _).
  assert (H2c : forall y, h_div h2 y = if (y =? prev) && negb (y =? 0) then div_set_next (h_div h y) next else h_div h y).
  { intros y. unfold h2. destruct (Z.eqb_spec prev 0) as [Z0|Z0]; cbn [negb]; hsimpl.
    - rewrite Z0, and_neg_zero. reflexivity.
    - unfold pupd. destruct (Z.eqb_spec y prev) as [->|]; [replace (prev =? 0) with false by lia|]; reflexivity. }
  assert (H3c : forall y, h_div h3 y = if (y =? next) && negb (y =? 0) then div_set_prev (h_div h2 y) prev else h_div h2 y).
  { intros y. unfold h3. destruct (Z.eqb_spec next 0) as [Z0|Z0]; cbn [negb]; hsimpl.
    - rewrite Z0, and_neg_zero. reflexivity.
    - unfold pupd. destruct (Z.eqb_spec y next) as [->|]; [replace (next =? 0) with false by lia|]; reflexivity. }
  assert (HX : forall y, y <> g -> h_group h3 y = h_group h y).
  { intros y Hy. unfold h3, h2. destruct (negb (next =? 0)); destruct (negb (prev =? 0)); hsimpl; unfold gupd; rewrite ?(gid_eqb_ne y g) by exact Hy; reflexivity. }
  assert (HXf : g_first (h_group h3 g) = if prev =? 0 then next else g_first (h_group h g)).
  { unfold h3, h2. destruct (next =? 0); destruct (prev =? 0); cbn [negb]; hsimpl; unfold gupd; rewrite ?gid_eqb_refl; hsimpl;
      rewrite ?gid_eqb_refl; reflexivity. }
  assert (HXl : g_last (h_group h3 g) = if next =? 0 then prev else g_last (h_group h g)).
  { unfold h3, h2. destruct (next =? 0); destruct (prev =? 0); cbn [negb]; hsimpl; unfold gupd; rewrite ?gid_eqb_refl; hsimpl;
      rewrite ?gid_eqb_refl; reflexivity. }
  assert (HDG : h_clock h4 = h_clock h /\ h_group h4 = h_group h3 /\ h_unit h4 = h_unit h /\ h_ctx h4 = h_ctx h).
  { unfold h4, h3, h2. destruct (negb (next =? 0)); destruct (negb (prev =? 0)); repeat split; reflexivity. }
  destruct HDG as (HD & HG & HU & HC).
  assert (H4c : forall y, y <> d -> h_div h4 y = h_div h3 y) by (intros y Hy; unfold h4; hsimpl; unfold pupd; replace (y =? d) with false by lia; reflexivity).
  split; [split|].
  - cbn [put_divs l_clocks]. apply (rep_clocks_same h); auto. intros; rewrite HC; auto.
  - apply (family_remove _ (dn h) (dp h) _ _ (fun y => d_group (h_div h y)) _
        (fun x => g_first (h_group h x)) (fun x => g_last (h_group h x)) _ _ (l_divs s) _ g d l1 l2); auto.
    + cbn [put_divs l_divs]. rewrite gid_eqb_refl. reflexivity.
    + intros y Hy. cbn [put_divs l_divs]. rewrite gid_eqb_ne by exact Hy. reflexivity.
    + intros y; apply gid_dec.
    + intros k Hk. unfold h4. hsimpl. unfold pupd. rewrite Z.eqb_refl. hsimpl. congruence.
    + intros y Hy. rewrite H4c, H3c, H2c by exact Hy.
      destruct ((y =? next) && negb (y =? 0)); destruct ((y =? prev) && negb (y =? 0)); reflexivity.
    + intros y Hy. unfold dn. rewrite H4c, H3c, H2c by exact Hy. fold prev next.
      destruct ((y =? next) && negb (y =? 0)); destruct ((y =? prev) && negb (y =? 0)); reflexivity.
    + intros y Hy. unfold dp. rewrite H4c, H3c, H2c by exact Hy. fold prev next.
      destruct ((y =? next) && negb (y =? 0)); destruct ((y =? prev) && negb (y =? 0)); reflexivity.
    + intros y Hy NE. rewrite HG, HX by exact NE. auto.
    + rewrite HG, HXf, B9, hd_app_ne. fold next. destruct (Z.eqb_spec prev 0) as [Z0|Z0].
      * apply P0 in Z0. rewrite Z0. reflexivity.
      * destruct l1; [exfalso; apply Z0; reflexivity|reflexivity].
    + rewrite HG, HXl, B10. destruct (Z.eqb_spec next 0) as [Z0|Z0].
      * apply N0 in Z0. rewrite Z0, app_nil_r. reflexivity.
      * destruct l2 as [|a l2']; [exfalso; apply Z0; reflexivity|]. rewrite last_app_cons, last_cons_ne. reflexivity.
  - cbn [put_divs l_units]. apply (rep_units_same h); auto. intros; rewrite HC; auto.
  - intros y Hy. rewrite H4c, H3c, H2c by exact Hy.
    destruct ((y =? next) && negb (y =? 0)); destruct ((y =? prev) && negb (y =? 0)); reflexivity.
Qed.

(** ** Units *)

Lemma unit_attach_ok h s u x : rep h s -> u <> 0 -> x <> 0 -> (forall y, y <> 0 -> ~ In u (l_units s y)) ->
  exists h', BKUnitAttach h u x = Ok (h', 0) /\ rep h' (put_units s x (l_units s x ++ [u])).
Proof.
  intros [RC RD RU] Hu Hx N.
  assert (G0 : u_ctx (h_unit h u) = 0).
  { destruct (Z.eq_dec (u_ctx (h_unit h u)) 0) as [E|E]; [exact E|]. exfalso. apply (N _ E). apply (fam_mem _ _ _ _ _ _ _ RU); auto. }
  unfold BKUnitAttach. rewrite G0. unfold NULL. cbn [Z.eqb].
  destruct (fam_dll _ _ _ _ _ _ _ RU x Hx) as (D1 & D2 & D3 & D4).
  set (last := x_lastUnit (h_ctx h x)) in *.
  set (h0 := set_unit h u _). eexists. split; [reflexivity|]. set (h3 := if negb (last =? 0) then _ else _).
  assert (NI := N x Hx).
  assert (LC : last <> u).
  { rewrite D2. intros EQ. destruct (last_in_or_zero (l_units s x)) as [Z0|I0]; [lia|]. rewrite EQ in I0. contradiction. }
  assert (L0 : last = 0 <-> l_units s x = []).
  { rewrite D2. destruct (l_units s x) as [|a l] eqn:LL; [tauto|]. split; [|congruence]. intros Z0. exfalso.
    exact (dseg_nonnull _ _ _ _ _ _ D3 (last_In (a :: l) 0 ltac:(congruence)) Z0). }
  assert (V1 : forall y, y <> u -> u_ctx (h_unit h3 y) = u_ctx (h_unit h y) /\ up h3 y = up h y /\
     un h3 y = if (y =? last) && negb (y =? 0) then u else un h y).
  { intros y Hy. unfold h3, h0. destruct (Z.eqb_spec last 0) as [Z0|Z0]; cbn [negb]; hsimpl; unfold pupd;
      replace (y =? u) with false by lia.
    - rewrite Z0, and_neg_zero. auto.
    - replace (last =? u) with false by lia. destruct (Z.eqb_spec y last) as [->|]; [replace (last =? 0) with false by lia|]; auto. }
  assert (V2 : u_ctx (h_unit h3 u) = x /\ un h3 u = 0 /\ up h3 u = last).
  { unfold h3, h0. destruct (Z.eqb_spec last 0) as [Z0|Z0]; cbn [negb]; hsimpl; unfold pupd; rewrite !Z.eqb_refl; hsimpl.
    - auto.
    - replace (u =? last) with false by lia. auto. }
  assert (V3 : forall y, y <> x -> h_ctx h3 y = h_ctx h y).
  { intros y Hy. unfold h3, h0. destruct (Z.eqb_spec last 0) as [Z0|Z0]; cbn [negb]; hsimpl; unfold pupd; replace (y =? x) with false by lia; reflexivity. }
  assert (V4 : x_firstUnit (h_ctx h3 x) = (if last =? 0 then u else x_firstUnit (h_ctx h x)) /\ x_lastUnit (h_ctx h3 x) = u /\
     x_firstClock (h_ctx h3 x) = x_firstClock (h_ctx h x) /\ x_lastClock (h_ctx h3 x) = x_lastClock (h_ctx h x)).
  { unfold h3, h0. destruct (Z.eqb_spec last 0) as [Z0|Z0]; cbn [negb]; hsimpl; unfold pupd; rewrite !Z.eqb_refl; hsimpl; auto. }
  assert (V5 : h_clock h3 = h_clock h /\ h_div h3 = h_div h /\ h_group h3 = h_group h).
  { unfold h3, h0. destruct (negb (last =? 0)); auto. }
  destruct V5 as (V5 & V6 & V7). destruct V2 as (V2 & V2' & V2''). destruct V4 as (V4 & V4' & V8 & V9).
  split.
  - cbn [put_units l_clocks]. apply (rep_clocks_same h); auto. intros y. destruct (Z.eq_dec y x) as [->|NE]; [auto|]. rewrite V3 by exact NE; auto.
  - cbn [put_units l_divs]. apply (rep_divs_same h); auto.
  - apply (family_insert _ (un h) (up h) _ _ (fun y => Some (u_ctx (h_unit h y))) _
        (fun x => x_firstUnit (h_ctx h x)) (fun x => x_lastUnit (h_ctx h x)) _ _ (l_units s) _ x u (l_units s x) []); auto.
    + symmetry; apply app_nil_r.
    + cbn [put_units l_units]. rewrite Z.eqb_refl. reflexivity.
    + intros y Hy. cbn [put_units l_units]. replace (y =? x) with false by lia. reflexivity.
    + intros y; apply zdec.
    + rewrite <- D2. exact V2''.
    + rewrite V2. reflexivity.
    + intros y Hy. destruct (V1 y Hy) as (-> & _). reflexivity.
    + intros y Hy. destruct (V1 y Hy) as (_ & _ & ->). rewrite <- D2. reflexivity.
    + intros y Hy. destruct (V1 y Hy) as (_ & -> & _). cbn [hd]. rewrite and_neg_zero. reflexivity.
    + intros y _ Hy. rewrite V3 by exact Hy. auto.
    + rewrite V4, D1. destruct (Z.eqb_spec last 0) as [Z0|Z0].
      * apply L0 in Z0. rewrite Z0. reflexivity.
      * destruct (l_units s x); [exfalso; apply Z0, L0; reflexivity|reflexivity].
Qed.

Lemma unit_detach_ok h s u x l1 l2 : rep h s -> x <> 0 -> l_units s x = l1 ++ u :: l2 ->
  rep (BKUnitDetach h u) (put_units s x (l1 ++ l2)).
Proof.
  intros [RC RD RU] Hx EL.
  destruct (family_around _ _ _ _ _ _ _ x u l1 l2 RU Hx EL) as (B1 & B2 & B3 & B4 & B5 & B6 & B7 & B8 & B9 & B10).
  injection B4 as B4'. unfold BKUnitDetach. rewrite B4'. unfold NULL. replace (x =? 0) with false by lia. cbn [negb].
  unfold up in B1. unfold un in B2. rewrite B1, B2.
  destruct (around_facts l1 l2 u B5 B6 B3 B7 B8) as (PC & NC & PN & P0 & N0).
  set (prev := List.last l1 0) in *. set (next := hd 0 l2) in *.
  set (h2 := if negb (prev =? 0) then _ else _).
  set (h3 := if negb (next =? 0) then _ else _).
  set (h4 := set_unit h3 u _).
  assert (H2c : forall y, h_unit h2 y = if (y =? prev) && negb (y =? 0) then mk_unode (u_ctx (h_unit h y)) (u_prev (h_unit h y)) next (u_time (h_unit h y)) else h_unit h y).
  { intros y. unfold h2. destruct (Z.eqb_spec prev 0) as [Z0|Z0]; cbn [negb]; hsimpl.
    - rewrite Z0, and_neg_zero. reflexivity.
    - unfold pupd. destruct (Z.eqb_spec y prev) as [->|]; [replace (prev =? 0) with false by lia|]; reflexivity. }
  assert (H3c : forall y, h_unit h3 y = if (y =? next) && negb (y =? 0) then mk_unode (u_ctx (h_unit h2 y)) prev (u_next (h_unit h2 y)) (u_time (h_unit h2 y)) else h_unit h2 y).
  { intros y. unfold h3. destruct (Z.eqb_spec next 0) as [Z0|Z0]; cbn [negb]; hsimpl.
    - rewrite Z0, and_neg_zero. reflexivity.
    - unfold pupd. destruct (Z.eqb_spec y next) as [->|]; [replace (next =? 0) with false by lia|]; reflexivity. }
  assert (HX : forall y, y <> x -> h_ctx h3 y = h_ctx h y).
  { intros y Hy. unfold h3, h2. destruct (negb (next =? 0)); destruct (negb (prev =? 0)); hsimpl; unfold pupd;
      replace (y =? x) with false by lia; reflexivity. }
  assert (HXu : x_firstClock (h_ctx h3 x) = x_firstClock (h_ctx h x) /\ x_lastClock (h_ctx h3 x) = x_lastClock (h_ctx h x)).
  { unfold h3, h2. destruct (negb (next =? 0)); destruct (negb (prev =? 0)); hsimpl; unfold pupd; rewrite ?Z.eqb_refl; hsimpl;
      rewrite ?Z.eqb_refl; auto. }
  assert (HXf : x_firstUnit (h_ctx h3 x) = if prev =? 0 then next else x_firstUnit (h_ctx h x)).
  { unfold h3, h2. destruct (next =? 0); destruct (prev =? 0); cbn [negb]; hsimpl; unfold pupd; rewrite ?Z.eqb_refl; hsimpl;
      rewrite ?Z.eqb_refl; reflexivity. }
  assert (HXl : x_lastUnit (h_ctx h3 x) = if next =? 0 then prev else x_lastUnit (h_ctx h x)).
  { unfold h3, h2. destruct (next =? 0); destruct (prev =? 0); cbn [negb]; hsimpl; unfold pupd; rewrite ?Z.eqb_refl; hsimpl;
      rewrite ?Z.eqb_refl; reflexivity. }
  assert (HDG : h_div h4 = h_div h /\ h_group h4 = h_group h /\ h_clock h4 = h_clock h /\ h_ctx h4 = h_ctx h3).
  { unfold h4, h3, h2. destruct (negb (next =? 0)); destruct (negb (prev =? 0)); repeat split; reflexivity. }
  destruct HDG as (HD & HG & HU & HC).
  assert (H4c : forall y, y <> u -> h_unit h4 y = h_unit h3 y) by (intros y Hy; unfold h4; hsimpl; unfold pupd; replace (y =? u) with false by lia; reflexivity).
  split.
  - cbn [put_units l_clocks]. apply (rep_clocks_same h); auto. intros y. rewrite HC.
    destruct (Z.eq_dec y x) as [->|NE]; [exact HXu|]. rewrite HX by exact NE. auto.
  - cbn [put_units l_divs]. apply (rep_divs_same h); assumption.
  - apply (family_remove _ (un h) (up h) _ _ (fun y => Some (u_ctx (h_unit h y))) _
        (fun x => x_firstUnit (h_ctx h x)) (fun x => x_lastUnit (h_ctx h x)) _ _ (l_units s) _ x u l1 l2); auto.
    + cbn [put_units l_units]. rewrite Z.eqb_refl. reflexivity.
    + intros y Hy. cbn [put_units l_units]. replace (y =? x) with false by lia. reflexivity.
    + intros y; apply zdec.
    + intros k Hk. unfold h4. hsimpl. unfold pupd. rewrite Z.eqb_refl. hsimpl. congruence.
    + intros y Hy. rewrite H4c, H3c, H2c by exact Hy.
      destruct ((y =? next) && negb (y =? 0)); destruct ((y =? prev) && negb (y =? 0)); reflexivity.
    + intros y Hy. unfold un. rewrite H4c, H3c, H2c by exact Hy. fold prev next.
      destruct ((y =? next) && negb (y =? 0)); destruct ((y =? prev) && negb (y =? 0)); reflexivity.
    + intros y Hy. unfold up. rewrite H4c, H3c, H2c by exact Hy. fold prev next.
      destruct ((y =? next) && negb (y =? 0)); destruct ((y =? prev) && negb (y =? 0)); reflexivity.
    + intros y Hy NE. rewrite HC, HX by exact NE. auto.
    + rewrite HC, HXf, B9, hd_app_ne. fold next. destruct (Z.eqb_spec prev 0) as [Z0|Z0].
      * apply P0 in Z0. rewrite Z0. reflexivity.
      * destruct l1; [exfalso; apply Z0; reflexivity|reflexivity].
    + rewrite HC, HXl, B10. destruct (Z.eqb_spec next 0) as [Z0|Z0].
      * apply N0 in Z0. rewrite Z0, app_nil_r. reflexivity.
      * destruct l2 as [|a l2']; [exfalso; apply Z0; reflexivity|]. rewrite last_app_cons, last_cons_ne. reflexivity.
Qed.

(** ** All operations *)

Lemma lstep_ok fuel h s o s' code : rep h s -> (forall g, (length (l_divs s g) <= fuel)%nat) ->
  spec_step s o s' code -> exists h', lstep fuel h o = Ok (h', code) /\ rep h' s'.
Proof.
  intros R F S. destruct S.
  - cbn [lstep]. apply clock_attach_last; auto.
  - cbn [lstep]. destruct (l_clocks s x) as [|b l2] eqn:EL.
    + destruct (clock_attach_last fuel h s c x R H H0 H1 (F _) BK_FIRST_ELEMENT_PTR (or_intror (conj eq_refl EL))) as (h' & E & R').
      exists h'. split; [exact E|]. rewrite EL in R'. exact R'.
    + apply (clock_attach_before fuel h s c x b [] l2); auto.
  - cbn [lstep]. apply (clock_attach_before fuel h s c x b l1 l2); auto.
  - cbn [lstep]. exists h. split; [|exact R]. unfold BKClockAttach, NULL.
    destruct (attached _ _ _ _ (rp_clocks _ _ R) H H0) as (E & _). rewrite E. replace (y =? 0) with false by lia. reflexivity.
  - cbn [lstep]. destruct (clock_detach_ok fuel h s c x l1 l2 R H H0 (F _)) as (h' & E & R'). exists h'. rewrite E. auto.
  - cbn [lstep]. exists h. split; [|exact R]. unfold BKClockDetach, NULL.
    rewrite (not_attached _ _ _ (rp_clocks _ _ R) H H0). reflexivity.
  - cbn [lstep]. destruct (clock_reset_ok fuel h c _ (rp_divs _ _ R) (F _)) as (h' & E & C1 & C2 & C3 & _).
    exists h'. rewrite E. split; [reflexivity|]. destruct R as [R1 R2 R3].
    split; [eapply rep_clocks_eq|eapply rep_divs_eq|eapply rep_units_eq]; eauto.
  - cbn [lstep]. apply div_attach_ok; auto.
  - cbn [lstep]. exists h. split; [|exact R]. unfold BKDividerAttachToGroup.
    apply (fam_mem _ _ _ _ _ _ _ (rp_divs _ _ R) y d I) in H. destruct H as (_ & ->). reflexivity.
  - cbn [lstep]. eexists. split; [reflexivity|]. apply (div_detach_ok h s d g l1 l2); auto.
  - cbn [lstep]. exists h. split; [|exact R]. unfold BKDividerDetach.
    destruct (d_group (h_div h d)) as [k|] eqn:E; [|reflexivity]. exfalso. apply (H0 k).
    apply (fam_mem _ _ _ _ _ _ _ (rp_divs _ _ R)); auto.
  - cbn [lstep]. apply unit_attach_ok; auto.
  - cbn [lstep]. exists h. split; [|exact R]. unfold BKUnitAttach, NULL.
    apply (fam_mem _ _ _ _ _ _ _ (rp_units _ _ R) y u H) in H0. destruct H0 as (_ & E). injection E as ->.
    replace (y =? 0) with false by lia. reflexivity.
  - cbn [lstep]. eexists. split; [reflexivity|]. apply unit_detach_ok; auto.
  - cbn [lstep]. exists h. split; [|exact R]. unfold BKUnitDetach, NULL.
    destruct (Z.eqb_spec (u_ctx (h_unit h u)) 0) as [E|E]; [reflexivity|]. exfalso. apply (H0 _ E).
    apply (fam_mem _ _ _ _ _ _ _ (rp_units _ _ R)); auto.
Qed.

Lemma spec_step_divs s o s' code n : spec_step s o s' code -> (forall g, (length (l_divs s g) <= n)%nat) ->
  forall g, (length (l_divs s' g) <= S n)%nat.
Proof.
  intros S F g. specialize (F g) as Fg. destruct S; cbn [put_clocks put_divs put_units l_divs]; try lia.
  - destruct (gid_eqb_spec g g0) as [->|]; [rewrite app_length; cbn; lia|lia].
  - destruct (gid_eqb_spec g g0) as [->|]; [|lia]. rewrite H in Fg. rewrite app_length in *. cbn in Fg. lia.
Qed.

Lemma lrun_ok : forall ops fuel h s s' codes n, rep h s -> (forall g, (length (l_divs s g) <= n)%nat) ->
  (n + length ops <= fuel)%nat -> spec_run s ops s' codes ->
  exists h', lrun fuel h ops = Ok (h', codes) /\ rep h' s'.
Proof.
  induction ops as [|o ops IH]; intros fuel h s s' codes n R F L SR; inversion SR as [|? ? s1 code ? ? codes0 H2 H4]; subst.
  - exists h. split; [reflexivity|exact R].
  - cbn [length] in L.
    destruct (lstep_ok fuel h s o s1 code R ltac:(intros g; specialize (F g); lia) H2) as (h1 & E1 & R1).
    destruct (IH fuel h1 s1 s' codes0 (S n) R1 (spec_step_divs _ _ _ _ _ H2 F) ltac:(lia) H4) as (h2 & E2 & R2).
    exists h2. split; [|exact R2]. cbn [lrun]. rewrite E1. cbn [bind]. rewrite E2. reflexivity.
Qed.

Lemma rep_fresh period cb dv delta current : rep (fresh_heap period cb dv delta current) empty_lists.
Proof.
  split; split.
  - intros k _. repeat split; constructor.
  - intros k c Hk. cbn. split; [tauto|]. intros (_ & E). congruence.
  - intros k _. repeat split; constructor.
  - intros k c Hk. cbn. split; [tauto|]. intros (_ & E). congruence.
  - intros k _. repeat split; constructor.
  - intros k c Hk. cbn. split; [tauto|]. intros (_ & E). congruence.
Qed.
