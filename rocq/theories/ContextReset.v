(** [BKContextReset] on the heap of clocks, dividers and units (ClockModel.v). *)
From Verif Require Import CIntFacts TimeModel ClockModel ListSpec DList Family ListProofs ClockSpec ClockProofs ClockProofs2.
Ltac Zify.zify_post_hook ::= idtac.

(** ** Model *)

(** Loop of BKContext.c lines 467-470; of [unit -> reset] ([BKUnitReset], BKUnit.c lines 1257-1267)
    only the time is part of this model. *)
Fixpoint reset_units (fuel : nat) (h : heap) (p : ptr) : res heap :=
  if p =? NULL then Ok h else
  match fuel with
  | O => Err EFuel
  | S fuel =>
    let u := h_unit h p in
    let h := set_unit h p (mk_unode (u_ctx u) (u_prev u) (u_next u) 0) in
    reset_units fuel h (u_next (h_unit h p))
  end.
(** Loop of BKContext.c lines 472-473; [m] bounds the clocks, [fuel] their dividers. *)
Fixpoint reset_clocks (m fuel : nat) (h : heap) (p : ptr) : res heap :=
  if p =? NULL then Ok h else
  match m with
  | O => Err EFuel
  | S m => let* h := BKClockReset fuel h p in reset_clocks m fuel h (c_next (h_clock h p))
  end.
(** [BKContextReset], BKContext.c lines 458-479, without the channels. *)
Definition BKContextReset (fuel : nat) (h : heap) (x : ptr) : res heap :=
  let h := set_ctx h x (ctx_set_time (h_ctx h x) 0 0) in
  let* h := reset_units fuel h (x_firstUnit (h_ctx h x)) in
  reset_clocks fuel fuel h (x_firstClock (h_ctx h x)).

(** ** What it does *)

(** A divider which has not fired yet. *)
Definition div_rewound (d : divider) : divider := div_set_state d (d_divider d) 0.
Lemma div_fields (b : bool) (d d' : divider) : d_group d' = d_group d -> d_next d' = d_next d -> d_prev d' = d_prev d -> d_cb d' = d_cb d -> d_divider d' = d_divider d ->
  d_counter d' = (if b then 0 else d_counter d) -> d' = if b then div_rewound d else d.
Proof. destruct d, d'. unfold div_rewound, div_set_state. cbn. intros -> -> -> -> -> ->. destruct b; reflexivity. Qed.
(** The dividers of a clock which is reset. *)
Lemma clock_reset_divs fuel h p h' B : rep_divs h B -> BKClockReset fuel h p = Ok h' -> (length (B (GClock p)) <= fuel)%nat ->
  forall y, h_div h' y = if existsb (Z.eqb y) (B (GClock p)) then div_rewound (h_div h y) else h_div h y.
Proof.
  intros [R1 R2] E F y. unfold BKClockReset in E. set (h0 := if negb (c_ctx (h_clock h p) =? NULL) then _ else _) in E.
  assert (H0d : h_div h0 = h_div h) by (unfold h0; destruct (negb _); reflexivity).
  assert (H0g : h_group h0 = h_group h) by (unfold h0; destruct (negb _); reflexivity).
  destruct (R1 (GClock p) I) as (D1 & D2 & D3 & D4).
  destruct (reset_dividers_ok (B (GClock p)) h0 fuel 0 (g_first (h_group h0 (GClock p)))) as (h1 & E1 & G1 & G2 & G3 & G4 & G5).
  - unfold dn, dp. rewrite H0d. exact D3.
  - rewrite H0g. exact D1.
  - exact F.
  - rewrite E1 in E. cbn [bind] in E. match type of E with Ok ?a = _ => assert (h' = a) as -> by congruence end. cbn [h_div set_clock].
    destruct (G5 y) as (K1 & K2 & K3 & K4 & K5 & K6). unfold dn, dp in *. rewrite H0d in *. apply div_fields; assumption.
Qed.

Lemma reset_units_ok : forall l h fuel p q, dseg (un h) (up h) p l 0 -> q = hd 0 l -> (length l <= fuel)%nat ->
  exists h', reset_units fuel h q = Ok h' /\ h_clock h' = h_clock h /\ h_div h' = h_div h /\ h_group h' = h_group h /\ h_ctx h' = h_ctx h /\
    (forall y, u_ctx (h_unit h' y) = u_ctx (h_unit h y) /\ un h' y = un h y /\ up h' y = up h y /\
      u_time (h_unit h' y) = if existsb (Z.eqb y) l then 0 else u_time (h_unit h y)).
Proof.
  induction l as [|a l IH]; intros h fuel p q H -> F.
  - exists h. split; [destruct fuel; reflexivity|]. repeat split; auto.
  - destruct H as (H0 & H1 & H2 & H3). destruct fuel as [|fuel]; [cbn in F; lia|]. cbn [hd reset_units]. unfold NULL. replace (a =? 0) with false by lia. cbv zeta.
    set (h1 := set_unit h a _).
    assert (L : forall y, u_ctx (h_unit h1 y) = u_ctx (h_unit h y) /\ un h1 y = un h y /\ up h1 y = up h y /\ u_time (h_unit h1 y) = if y =? a then 0 else u_time (h_unit h y)).
    { intros y. unfold h1. hsimpl. pcase; repeat split; reflexivity. }
    destruct (IH h1 fuel a (u_next (h_unit h1 a))) as (h2 & E2 & G1 & G2 & G3 & G4 & G5).
    + apply (dseg_ext (un h) (up h)); [exact H3|]. intros y _. destruct (L y) as (_ & X & Y & _). auto.
    + destruct (L a) as (_ & X & _). unfold un in X at 1. rewrite X. exact H2.
    + cbn in F; lia.
    + exists h2. split; [exact E2|]. split; [rewrite G1; reflexivity|]. split; [rewrite G2; reflexivity|]. split; [rewrite G3; reflexivity|]. split; [rewrite G4; reflexivity|].
      intros y. destruct (L y) as (L1 & L2 & L3 & L4). destruct (G5 y) as (K1 & K2 & K3 & K4). repeat split; try congruence. rewrite K4, L4. cbn [existsb]. destruct (y =? a); [destruct (existsb (Z.eqb y) l)|]; reflexivity.
Qed.

(** A clock as if it had never ticked. *)
Definition rewound (c : clock) : clock := mk_clock (c_ctx c) (c_prev c) (c_next c) (c_period c) 0 0 0 (c_cb c).
Definition of_clocks (B : gid -> list ptr) (l : list ptr) (y : ptr) : bool := existsb (fun c => existsb (Z.eqb y) (B (GClock c))) l.

Lemma reset_clocks_ok fuel s : (forall g, (length (l_divs s g) <= fuel)%nat) -> forall l m h p q, rep h s -> dseg (cn h) (cp h) p l 0 -> NoDup l -> q = hd 0 l -> (length l <= m)%nat ->
  exists h', reset_clocks m fuel h q = Ok h' /\ rep h' s /\
    (forall c, h_clock h' c = if existsb (Z.eqb c) l then rewound (h_clock h c) else h_clock h c) /\
    (forall x, x_deltaTime (h_ctx h' x) = x_deltaTime (h_ctx h x) /\ x_currentTime (h_ctx h' x) = x_currentTime (h_ctx h x)) /\
    (forall y, h_div h' y = if of_clocks (l_divs s) l y then div_rewound (h_div h y) else h_div h y).
Proof.
  intros FD. induction l as [|a l IH]; intros m h p q R H ND -> F.
  - exists h. split; [destruct m; reflexivity|]. split; [exact R|]. repeat split; reflexivity.
  - destruct H as (H0 & H1 & H2 & H3). destruct m as [|m]; [cbn in F; lia|]. cbn [hd reset_clocks]. unfold NULL. replace (a =? 0) with false by lia.
    destruct (clock_reset_ok fuel h a (l_divs s) (rp_divs _ _ R) (FD _)) as (h1 & E1 & C1 & C2 & C3 & C4 & C5 & C6). rewrite E1. cbn [bind]. cbv zeta in C5. fold (rewound (h_clock h a)) in C5.
    pose proof (clock_reset_divs fuel h a h1 (l_divs s) (rp_divs _ _ R) E1 (FD _)) as DV.
    assert (R1 : rep h1 s).
    { destruct R as [RC RD RU]. constructor; [exact (rep_clocks_eq _ _ _ RC C1)|exact (rep_divs_eq _ _ _ RD C2)|exact (rep_units_eq _ _ _ RU C3)]. }
    inversion ND as [|? ? NI ND']; subst.
    destruct (IH m h1 a (c_next (h_clock h1 a)) R1) as (h2 & E2 & R2 & K1 & K2 & K3).
    + apply (dseg_ext (cn h) (cp h)); [exact H3|]. intros y _. destruct (ce_clock _ _ C1 y) as (_ & X & Y). auto.
    + exact ND'.
    + rewrite C5. cbn [rewound c_next]. exact H2.
    + cbn in F; lia.
    + exists h2. split; [exact E2|]. split; [exact R2|]. split; [|split].
      * intros c. rewrite K1. cbn [existsb]. destruct (Z.eqb_spec c a) as [->|N].
        -- cbn [orb]. replace (existsb (Z.eqb a) l) with false; [exact C5|]. symmetry. destruct (existsb (Z.eqb a) l) eqn:EE; [|reflexivity]. apply existsb_exists in EE as (y & Hy & EY). apply Z.eqb_eq in EY. subst y. contradiction.
        -- cbn [orb]. rewrite (C4 c N). reflexivity.
      * intros x. destruct (K2 x) as (-> & ->). exact (C6 x).
      * intros y. rewrite K3, DV. unfold of_clocks. cbn [existsb]. fold (of_clocks (l_divs s) l y).
        destruct (existsb (Z.eqb y) (l_divs s (GClock a))); [destruct (of_clocks (l_divs s) l y)|]; reflexivity.
Qed.

Lemma context_reset_ok fuel h s x : rep h s -> x <> 0 -> (forall g, (length (l_divs s g) <= fuel)%nat) -> (length (l_clocks s x) <= fuel)%nat -> (length (l_units s x) <= fuel)%nat ->
  exists h', BKContextReset fuel h x = Ok h' /\ rep h' s /\
    (forall c, h_clock h' c = if existsb (Z.eqb c) (l_clocks s x) then rewound (h_clock h c) else h_clock h c) /\
    x_deltaTime (h_ctx h' x) = 0 /\ x_currentTime (h_ctx h' x) = 0 /\
    (forall y, h_div h' y = if of_clocks (l_divs s) (l_clocks s x) y then div_rewound (h_div h y) else h_div h y).
Proof.
  intros R Hx FD FC FU. unfold BKContextReset. cbv zeta. set (h0 := set_ctx h x _).
  assert (X0 : forall y, x_firstClock (h_ctx h0 y) = x_firstClock (h_ctx h y) /\ x_lastClock (h_ctx h0 y) = x_lastClock (h_ctx h y) /\
     x_firstUnit (h_ctx h0 y) = x_firstUnit (h_ctx h y) /\ x_lastUnit (h_ctx h0 y) = x_lastUnit (h_ctx h y)).
  { intros y. unfold h0. hsimpl. unfold pupd. destruct (Z.eqb_spec y x) as [->|]; hsimpl; repeat split; reflexivity. }
  assert (T0 : x_deltaTime (h_ctx h0 x) = 0 /\ x_currentTime (h_ctx h0 x) = 0) by (unfold h0; hsimpl; unfold pupd; rewrite Z.eqb_refl; split; reflexivity).
  destruct R as [[C1 C2] RD [U1 U2]]. destruct (U1 x Hx) as (A1 & A2 & A3 & A4). destruct (C1 x Hx) as (B1 & B2 & B3 & B4).
  destruct (reset_units_ok (l_units s x) h0 fuel 0 (x_firstUnit (h_ctx h0 x))) as (h1 & E1 & G1 & G2 & G3 & G4 & G5); [exact A3|destruct (X0 x) as (_ & _ & -> & _); exact A1|exact FU|].
  rewrite E1. cbn [bind].
  assert (R1 : rep h1 s).
  { constructor.
    - apply (rep_clocks_eq h h1); [split; assumption|]. constructor.
      + intros p. unfold cn, cp. rewrite G1. repeat split; reflexivity.
      + intros y. rewrite G4. destruct (X0 y) as (X1 & X2 & _). auto.
    - apply (rep_divs_eq h h1); [exact RD|]. constructor; [intros p; unfold dn, dp; rewrite G2; repeat split; reflexivity|]. intros g. rewrite G3. reflexivity.
    - apply (rep_units_eq h h1); [split; assumption|]. constructor.
      + intros p. destruct (G5 p) as (Y1 & Y2 & Y3 & _). auto.
      + intros y. rewrite G4. destruct (X0 y) as (_ & _ & X1 & X2). auto. }
  destruct (reset_clocks_ok fuel s FD (l_clocks s x) fuel h1 0 (x_firstClock (h_ctx h1 x)) R1) as (h2 & E2 & R2 & K1 & K2 & K3).
  - unfold cn, cp. rewrite G1. exact B3.
  - exact B4.
  - rewrite G4. destruct (X0 x) as (-> & _). exact B1.
  - exact FC.
  - exists h2. split; [exact E2|]. split; [exact R2|]. split; [intros c; rewrite K1, G1; reflexivity|]. destruct (K2 x) as (-> & ->). rewrite G4. split; [apply T0|]. split; [apply T0|].
    intros y. rewrite K3, G2. reflexivity.
Qed.

(** Everything that ran begins anew, with the periods the clocks have. *)
Section Restart.
Context (o : oracle) (x : Z) (s : lists) (per : Z -> Z) (cb : Z -> clock_cb) (dv0 : Z -> divider) (D : nat).
Hypothesis H : run_hyps o x s per D.

Lemma period_in h tr cur c : rinv o x s per cb dv0 h tr cur -> In c (l_clocks s x) -> 0 < c_period (h_clock h c) < 4611686018427387904.
Proof.
  intros (GI & PN) Hc. destruct (PN c Hc) as (k & CS & P1 & P2). rewrite (cs_period _ _ _ _ _ _ _ CS). pose proof (gi_rng _ _ _ _ _ _ _ _ GI) as RN. clear CS P2.
  pose proof (rh_per _ _ _ _ _ H c Hc) as HP.
  assert (G : 0 <= fst (sched o c (per c) k) /\ 0 < snd (sched o c (per c) k) < 4611686018427387904); [|exact (proj2 G)].
  induction k as [|k IH]; [cbn; lia|]. assert (IH' : 0 <= fst (sched o c (per c) k) /\ 0 < snd (sched o c (per c) k) < 4611686018427387904) by (apply IH; intros i Hi; apply P1; lia).
  specialize (P1 k ltac:(lia)). cbn [sched]. destruct (sched o c (per c) k) as [t p]. cbn [fst snd] in *. pose proof (rh_next _ _ _ _ _ H c (u32 (Z.of_nat k)) t ltac:(lia)) as HN.
  destruct (Z.gtb_spec (o_next o c (u32 (Z.of_nat k)) t) t); cbn [fst snd]; lia.
Qed.
Lemma restart h tr cur fuel : rinv o x s per cb dv0 h tr cur -> (length (l_clocks s x) + D <= fuel)%nat -> (length (l_units s x) <= fuel)%nat ->
  exists h', BKContextReset fuel h x = Ok h' /\ run_hyps o x s (fun c => c_period (h_clock h c)) D /\ rinv o x s (fun c => c_period (h_clock h c)) cb (h_div h') h' [] 0 /\ x_deltaTime (h_ctx h' x) = 0 /\
    (forall y, h_div h' y = if of_clocks (l_divs s) (l_clocks s x) y then div_rewound (h_div h y) else h_div h y).
Proof.
  intros RI HF HU. pose proof (rh_D _ _ _ _ _ H) as HD. pose proof (rh_x _ _ _ _ _ H) as Hx.
  destruct (context_reset_ok fuel h s x (gi_rep _ _ _ _ _ _ _ _ (proj1 RI)) Hx ltac:(intros g; specialize (HD g); lia) ltac:(lia) HU) as (h' & E & R & K1 & K2 & K3 & K4).
  exists h'. split; [exact E|]. split; [|split; [|split; [exact K2|exact K4]]].
  - destruct H as [H1 H2 H3 H4 H5]. constructor; auto. intros c Hc. exact (period_in h tr cur c RI Hc).
  - split.
    + destruct (proj1 RI) as [_ CB _ _ GD]. constructor; [exact R| |exact K3|lia|].
      * intros c. rewrite K1. destruct (existsb _ _); [cbn [rewound c_cb]|]; apply CB.
      * intros g d Hd. split; [reflexivity|]. destruct (GD g d Hd) as (_ & G1 & G2). unfold dgood. rewrite K4. destruct (of_clocks _ _ _); cbn [div_rewound div_set_state d_divider d_counter]; lia.
    + intros c Hc. exists O. assert (EX : existsb (Z.eqb c) (l_clocks s x) = true) by (apply existsb_exists; exists c; split; [exact Hc|apply Z.eqb_refl]).
      split; [constructor; rewrite ?K1, ?EX; reflexivity|]. split; [intros i Hi; lia|cbn; lia].
Qed.
End Restart.

(** The dividers of the groups of contexts are no dividers of clocks. *)
Lemma not_of_clocks h s l g d : rep h s -> In d (l_divs s g) -> (forall c, g <> GClock c) -> of_clocks (l_divs s) l d = false.
Proof.
  intros R Hd NG. destruct (of_clocks _ l d) eqn:E; [|reflexivity]. exfalso. unfold of_clocks in E. apply existsb_exists in E as (c & _ & E). apply existsb_exists in E as (y & Hy & E). apply Z.eqb_eq in E. subst y.
  apply (fam_mem _ _ _ _ _ _ _ (rp_divs _ _ R) g d I) in Hd as (_ & G1). apply (fam_mem _ _ _ _ _ _ _ (rp_divs _ _ R) (GClock c) d I) in Hy as (_ & G2). apply (NG c). congruence.
Qed.
Lemma of_clocks_in B l c d : In c l -> In d (B (GClock c)) -> of_clocks B l d = true.
Proof. intros Hc Hd. apply existsb_exists. exists c. split; [exact Hc|]. apply existsb_exists. exists d. split; [exact Hd|apply Z.eqb_refl]. Qed.

(** Only one clock drives the dividers. *)
Lemma drive_one cb c g tr : g = GClock c \/ (exists x', cb c = CbMaster x' /\ (forall c', cb c' = CbMaster x' -> c' = c) /\ (g = GBeat x' \/ g = GEffect x')) ->
  drive_times cb g tr = clock_trace c tr.
Proof.
  intros HG. apply flat_map_ext. intros [c' t|d' t]; [|reflexivity].
  replace (drives cb c' g) with (c' =? c); [reflexivity|]. symmetry.
  destruct HG as [->|(x' & G1 & G2 & G3)].
  - apply Z.eqb_sym.
  - assert (G4 : drives cb c' g = match cb c' with CbMaster x'' => x'' =? x' | _ => false end) by (destruct G3 as [->| ->]; reflexivity).
    rewrite G4. destruct (Z.eqb_spec c' c) as [->|N]; [rewrite G1; apply Z.eqb_refl|].
    destruct (cb c') as [|x''|] eqn:E; try reflexivity. destruct (Z.eqb_spec x'' x') as [->|]; [|reflexivity]. exfalso; auto.
Qed.

(** A run, a reset and another run. *)
Lemma run_reset_run per cb dv ops s codes o x ends1 ends2 fuel n D :
  spec_run empty_lists ops s codes ->
  x <> 0 -> l_clocks s x <> [] ->
  (forall c, In c (l_clocks s x) -> 0 < per c < 2 ^ 62) ->
  (forall c k t, 0 <= t < 2 ^ 62 -> o_next o c k t < 2 ^ 62) ->
  (forall d, 1 <= dv d < 2 ^ 31) ->
  (forall d t v, 1 <= v < 2 ^ 31 -> 0 <= o_div o d t v < 2 ^ 31) ->
  (forall e, In e ends1 \/ In e ends2 -> 0 <= e < 2 ^ 31 /\ e <= Z.of_nat n) ->
  Zsum ends1 < 2 ^ 61 -> Zsum ends2 < 2 ^ 61 ->
  (forall g, (length (l_divs s g) <= D)%nat) -> (length ops + length (l_clocks s x) + D <= fuel)%nat -> (length (l_units s x) <= fuel)%nat ->
  exists h0 h1 h2 h3 tr1 tr2 now1 now2,
    lrun fuel (fresh_heap per cb dv 0 0) ops = Ok (h0, codes) /\ quiet per cb dv h0 /\
    run_ends n fuel o h0 [] x ends1 = Ok (h1, tr1) /\ Zsum ends1 <= now1 < Zsum ends1 + 715827882 /\
    BKContextReset fuel h1 x = Ok h2 /\
    run_ends n fuel o h2 [] x ends2 = Ok (h3, tr2) /\ Zsum ends2 <= now2 < Zsum ends2 + 715827882 /\
    rinv o x s per cb (h_div h0) h1 tr1 now1 /\
    rinv o x s (fun c => c_period (h_clock h1 c)) cb (h_div h2) h3 tr2 now2 /\
    (forall y, h_div h2 y = if of_clocks (l_divs s) (l_clocks s x) y then div_rewound (h_div h1 y) else h_div h1 y).
Proof.
  intros SR Hx NE HP HN HV HO HE HS1 HS2 HD HF HU.
  assert (RH : run_hyps o x s per D) by (constructor; auto).
  destruct (lrun_ok ops fuel _ _ _ _ O (rep_fresh per cb dv 0 0) ltac:(intros; cbn; lia) ltac:(lia) SR) as (h0 & E0 & R0).
  assert (Q0 := quiet_run per cb dv fuel ops _ _ _ (quiet_fresh per cb dv) E0).
  assert (RI := rinv_start o x s per cb dv D h0 RH ltac:(intros d; specialize (HV d); lia) R0 Q0).
  destruct (q_ctx _ _ _ _ Q0 x) as (T0 & _).
  destruct (run_ends_ok o x s per cb (h_div h0) D RH fuel n NE ltac:(lia) ends1 h0 [] 0 RI) as (h1 & tr1 & E1 & RI1 & DT1).
  { intros e He. specialize (HE e (or_introl He)). lia. }
  { rewrite T0. lia. }
  { rewrite T0. lia. }
  cbn [app] in *. rewrite T0 in RI1.
  destruct (restart o x s per cb (h_div h0) D RH h1 tr1 _ fuel RI1 ltac:(lia) HU) as (h2 & E2 & RH2 & RI2 & T2 & DV).
  destruct (run_ends_ok o x s (fun c => c_period (h_clock h1 c)) cb (h_div h2) D RH2 fuel n NE ltac:(lia) ends2 h2 [] 0 RI2) as (h3 & tr2 & E3 & RI3 & DT3).
  { intros e He. specialize (HE e (or_intror He)). lia. }
  { rewrite T2. lia. }
  { rewrite T2. lia. }
  cbn [app] in *. rewrite T2 in RI3.
  exists h0, h1, h2, h3, tr1, tr2, (0 - 0 + Zsum ends1 + x_deltaTime (h_ctx h1 x)), (0 - 0 + Zsum ends2 + x_deltaTime (h_ctx h3 x)).
  repeat (match goal with |- _ /\ _ => split end); try assumption; try lia.
  all: apply Q0.
Qed.
