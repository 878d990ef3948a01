(** Ticks of clocks and dividers follow the schedule of ClockSpec. *)
From Verif Require Import CIntFacts TimeModel ClockModel ListSpec DList Family ListProofs ClockSpec.
Ltac Zify.zify_post_hook ::= idtac.

(** ** One divider *)

Definition dgood (d : divider) : Prop := 1 <= d_divider d < 2147483648 /\ 0 <= d_counter d < 2147483648.
Definition dfires (d : divider) : bool := (d_counter d <=? 0) && d_cb d.

Lemma u32_small z : 0 <= z < 4294967296 -> u32 z = z.
Proof. intros; apply u32_id; lia. Qed.

Lemma s32_small z : -2147483648 <= z < 2147483648 -> s32 z = z.
Proof. intros; apply s32_id; lia. Qed.

Lemma chk32_small z : -2147483648 <= z < 2147483648 -> chk32 z = Ok z.
Proof. intros; apply chk32_ok; lia. Qed.

Definition next_value (o : Z -> Z) (d : divider) : Z :=
  if d_counter d <=? 0 then (if d_cb d then Z.max 1 (o (d_divider d)) else d_divider d) else d_divider d.

Lemma divider_tick_ok o d : dgood d -> (forall v, 1 <= v < 2147483648 -> 0 <= o v < 2147483648) ->
  divider_tick o d = Ok (div_set_state d (next_value o d) ((if d_counter d <=? 0 then next_value o d else d_counter d) - 1), dfires d) /\
  dgood (div_set_state d (next_value o d) ((if d_counter d <=? 0 then next_value o d else d_counter d) - 1)).
Proof.
  intros [D1 D2] Ho. unfold divider_tick, next_value, dfires, dgood. pose proof (Ho _ D1) as Hv.
  destruct d as [g p n cb v k]. cbn [d_divider d_counter d_cb div_set_state d_group d_prev d_next] in *.
  destruct (Z.leb_spec k 0) as [K|K].
  - rewrite (u32_small v) by lia. destruct cb.
    + rewrite (u32_small (o v)) by lia. unfold BKMax.
      replace (if 1 >? o v then 1 else o v) with (Z.max 1 (o v)) by (destruct (Z.gtb_spec 1 (o v)); lia).
      rewrite s32_small by lia.
      cbn [d_divider d_counter d_cb div_set_state d_group d_prev d_next]. rewrite chk32_small by lia.
      cbn [bind andb]. split; [reflexivity|]. lia.
    + cbn [d_divider d_counter d_cb div_set_state d_group d_prev d_next]. rewrite chk32_small by lia.
      cbn [bind andb]. split; [reflexivity|]. lia.
  - cbn [d_divider d_counter d_cb div_set_state d_group d_prev d_next]. rewrite chk32_small by lia.
    cbn [bind andb]. split; [reflexivity|]. lia.
Qed.

Lemma div_iter_app o d : forall l1 l2 d1 f1, div_iter o d l1 = Ok (d1, f1) ->
  div_iter o d (l1 ++ l2) = (let* (d2, f2) := div_iter o d1 l2 in Ok (d2, f1 ++ f2)).
Proof.
  intros l1. revert d. induction l1 as [|t l1 IH]; intros d l2 d1 f1 E; cbn [app div_iter] in *.
  - inversion E; subst. destruct (div_iter o d1 l2) as [[? ?]|]; reflexivity.
  - destruct (divider_tick (o t) d) as [[d' b]|] eqn:E1; cbn [bind] in *; [|discriminate].
    destruct (div_iter o d' l1) as [[d'' f]|] eqn:E2; cbn [bind] in *; [|discriminate].
    inversion E; subst. rewrite (IH d' l2 d1 f E2).
    destruct (div_iter o d1 l2) as [[d2 f2]|]; cbn [bind]; [|reflexivity]. destruct b; reflexivity.
Qed.

(** ** A list of dividers *)

Lemma divider_list o now : (forall d v, 1 <= v < 2147483648 -> 0 <= o_div o d now v < 2147483648) ->
  forall l h tr p q fuel, dseg (dn h) (dp h) p l 0 -> q = hd 0 l -> NoDup l -> (length l <= fuel)%nat ->
  (forall d, In d l -> dgood (h_div h d)) ->
  exists h', BKDividerTick fuel o now h tr q =
       Ok (h', tr ++ map (fun d => EvDivider d now) (filter (fun d => dfires (h_div h d)) l)) /\
    h_clock h' = h_clock h /\ h_group h' = h_group h /\ h_unit h' = h_unit h /\ h_ctx h' = h_ctx h /\
    (forall d, ~ In d l -> h_div h' d = h_div h d) /\
    (forall d, In d l -> divider_tick (o_div o d now) (h_div h d) = Ok (h_div h' d, dfires (h_div h d)) /\ dgood (h_div h' d)).
Proof.
  intros Ho. induction l as [|a l IH]; intros h tr p q fuel H -> ND F G.
  - exists h. split; [destruct fuel; cbn; rewrite app_nil_r; reflexivity|]. repeat split; auto; contradiction.
  - destruct H as (H0 & H1 & H2 & H3). destruct fuel as [|fuel]; [cbn in F; lia|].
    inversion ND as [|? ? NA ND']; subst.
    cbn [hd BKDividerTick]. unfold NULL. replace (a =? 0) with false by lia.
    destruct (divider_tick_ok (o_div o a now) (h_div h a) (G a (or_introl eq_refl)) (Ho a)) as (E1 & G1).
    rewrite E1. cbn [bind]. set (d1 := div_set_state (h_div h a) _ _) in *.
    set (h1 := set_div h a d1).
    assert (L : forall y, y <> a -> h_div h1 y = h_div h y) by (intros y Hy; unfold h1; hsimpl; unfold pupd; replace (y =? a) with false by lia; reflexivity).
    assert (La : h_div h1 a = d1) by (unfold h1; hsimpl; unfold pupd; rewrite Z.eqb_refl; reflexivity).
    assert (LN : forall y, dn h1 y = dn h y /\ dp h1 y = dp h y).
    { intros y. unfold dn, dp. destruct (Z.eq_dec y a) as [->|NE]; [rewrite La; split; reflexivity|rewrite L by exact NE; auto]. }
    set (tr1 := if dfires (h_div h a) then tr ++ [EvDivider a now] else tr).
    destruct (IH h1 tr1 a (d_next (h_div h1 a)) fuel) as (h2 & E2 & G2 & G3 & G4 & G5 & G6 & G7).
    + apply (dseg_ext (dn h) (dp h)); [exact H3|]. intros y _. exact (LN y).
    + destruct (LN a) as (X & _). unfold dn in X at 1. rewrite X. exact H2.
    + exact ND'.
    + cbn in F; lia.
    + intros d Hd. rewrite L by (intros ->; contradiction). apply G. right; exact Hd.
    + exists h2. split; [|split; [|split; [|split; [|split; [|split]]]]].
      * rewrite E2. f_equal. f_equal. cbn [filter]. unfold tr1.
        assert (EF : filter (fun d => dfires (h_div h1 d)) l = filter (fun d => dfires (h_div h d)) l).
        { apply filter_ext_in. intros y Hy. rewrite L; [reflexivity|intros ->; contradiction]. }
        rewrite EF. destruct (dfires (h_div h a)); cbn [map]; [rewrite <- app_assoc|]; reflexivity.
      * rewrite G2; reflexivity.
      * rewrite G3; reflexivity.
      * rewrite G4; reflexivity.
      * rewrite G5; reflexivity.
      * intros d Hd. cbn [In] in Hd. rewrite G6, L by intuition congruence. reflexivity.
      * intros d [<-|Hd].
        -- rewrite G6, La by exact NA. split; assumption.
        -- rewrite <- (L d) by (intros ->; contradiction). apply G7. exact Hd.
Qed.

(** ** Traces *)
Lemma clock_trace_app c a b : clock_trace c (a ++ b) = clock_trace c a ++ clock_trace c b.
Proof. apply flat_map_app. Qed.
Lemma div_trace_app c a b : div_trace c (a ++ b) = div_trace c a ++ div_trace c b.
Proof. apply flat_map_app. Qed.
Lemma drive_times_app cb g a b : drive_times cb g (a ++ b) = drive_times cb g a ++ drive_times cb g b.
Proof. apply flat_map_app. Qed.

Lemma clock_trace_divs c now l : clock_trace c (map (fun d => EvDivider d now) l) = [].
Proof. induction l; [reflexivity|exact IHl]. Qed.
Lemma drive_times_divs cb g now l : drive_times cb g (map (fun d => EvDivider d now) l) = [].
Proof. induction l; [reflexivity|exact IHl]. Qed.
Lemma div_trace_divs d now (f : Z -> bool) l : NoDup l ->
  div_trace d (map (fun d => EvDivider d now) (filter f l)) = if existsb (Z.eqb d) l && f d then [now] else [].
Proof.
  induction l as [|a l IH]; intros ND; [reflexivity|]. inversion ND as [|? ? NA ND']; subst. specialize (IH ND').
  cbn [filter existsb]. assert (NE : existsb (Z.eqb a) l = false).
  { destruct (existsb (Z.eqb a) l) eqn:E; [|reflexivity]. apply existsb_exists in E as (y & Hy & E). apply Z.eqb_eq in E. subst. contradiction. }
  destruct (Z.eqb_spec d a) as [->|Hd].
  - rewrite NE in IH. cbn [andb orb] in *. destruct (f a) eqn:Fa; cbn [map].
    + change (div_trace a ([EvDivider a now] ++ map (fun d => EvDivider d now) (filter f l)) = [now]).
      rewrite div_trace_app, IH. cbn. rewrite Z.eqb_refl. reflexivity.
    + exact IH.
  - cbn [orb]. destruct (f a) eqn:Fa; cbn [map]; [|exact IH].
    change (div_trace d ([EvDivider a now] ++ map (fun d => EvDivider d now) (filter f l)) = if existsb (Z.eqb d) l && f d then [now] else []).
    rewrite div_trace_app, IH. cbn. replace (a =? d) with false by lia. reflexivity.
Qed.

(** ** Groups of dividers *)
Section Groups.
Variables (o : oracle) (now : Z) (dv0 : Z -> divider) (B : gid -> list Z) (D : nat).
Hypothesis Ho : forall d v, 1 <= v < 2147483648 -> 0 <= o_div o d now v < 2147483648.
Hypothesis HD : forall g, (length (B g) <= D)%nat.

(** Dividers of the groups in [G] were ticked once more than at [times]. *)
Definition ginv (times : gid -> list Z) (G : gid -> bool) (h : heap) (tr : list event) : Prop :=
  forall g d, In d (B g) ->
    div_iter (o_div o d) (dv0 d) (times g ++ if G g then [now] else []) = Ok (h_div h d, div_trace d tr) /\ dgood (h_div h d).

Lemma group_tick times G h tr g0 fuel : rep_divs h B -> ginv times G h tr -> G g0 = false -> (D <= fuel)%nat ->
  exists h' evs, BKDividerTick fuel o now h tr (g_first (h_group h g0)) = Ok (h', tr ++ evs) /\
    h_clock h' = h_clock h /\ h_group h' = h_group h /\ h_unit h' = h_unit h /\ h_ctx h' = h_ctx h /\
    dlinks_eq h h' /\ (forall c, clock_trace c evs = []) /\ (forall cb g, drive_times cb g evs = []) /\
    ginv times (fun g => G g || gid_eqb g g0) h' (tr ++ evs).
Proof.
  intros R GI HG HF.
  destruct (fam_dll _ _ _ _ _ _ _ R g0 I) as (D1 & D2 & D3 & D4).
  destruct (divider_list o now Ho (B g0) h tr 0 (g_first (h_group h g0)) fuel D3 D1 D4) as (h' & E & X1 & X2 & X3 & X4 & X5 & X6).
  - specialize (HD g0). lia.
  - intros d Hd. apply (GI g0 d Hd).
  - eexists h', _. split; [exact E|]. do 4 (split; [assumption|]). split; [|split; [|split]].
    + split; [|intros g; rewrite X2; reflexivity]. intros y. unfold dn, dp.
      destruct (in_dec Z.eq_dec y (B g0)) as [Hy|Hy]; [|rewrite X5 by exact Hy; auto].
      destruct (X6 y Hy) as (E6 & _). destruct (divider_tick_ok (o_div o y now) (h_div h y)) as (E7 & _);
        [apply (GI g0 y Hy)|apply Ho|]. rewrite E6 in E7.
      assert (E8 : h_div h' y = div_set_state (h_div h y) (next_value (o_div o y now) (h_div h y))
         ((if d_counter (h_div h y) <=? 0 then next_value (o_div o y now) (h_div h y) else d_counter (h_div h y)) - 1)) by congruence.
      rewrite E8. auto.
    + intros c. apply clock_trace_divs.
    + intros cb g. apply drive_times_divs.
    + intros g d Hd. rewrite div_trace_app, div_trace_divs by exact D4.
      destruct (GI g d Hd) as (K1 & K2).
      destruct (gid_eqb_spec g g0) as [->|NE].
      * rewrite HG in *. rewrite app_nil_r in K1. cbn [orb].
        destruct (X6 d Hd) as (E6 & G6). split; [|exact G6].
        rewrite (div_iter_app _ _ _ _ _ _ K1). cbn [div_iter]. rewrite E6. cbn [bind].
        replace (existsb (Z.eqb d) (B g0)) with true; [reflexivity|].
        symmetry. apply existsb_exists. exists d. split; [exact Hd|apply Z.eqb_refl].
      * rewrite Bool.orb_false_r.
        assert (ND : ~ In d (B g0)).
        { intros I0. apply (fam_mem _ _ _ _ _ _ _ R g0 d I) in I0. apply (fam_mem _ _ _ _ _ _ _ R g d I) in Hd.
          destruct I0 as (_ & I0). destruct Hd as (_ & Hd). congruence. }
        rewrite X5 by exact ND.
        replace (existsb (Z.eqb d) (B g0)) with false; [cbn [andb]; rewrite app_nil_r; auto|].
        symmetry. destruct (existsb (Z.eqb d) (B g0)) eqn:EE; [|reflexivity].
        apply existsb_exists in EE as (y & Hy & EE). apply Z.eqb_eq in EE. subst. contradiction.
Qed.
End Groups.

(** ** Clocks *)
Section Run.
Variables (o : oracle) (x : Z) (s : lists) (per : Z -> Z) (cb : Z -> clock_cb) (dv0 : Z -> divider) (D : nat).
Notation L := (l_clocks s x).
Notation B := (l_divs s).
Notation T62 := 4611686018427387904.

Record run_hyps : Prop := {
  rh_x : x <> 0;
  rh_div : forall d t v, 1 <= v < 2147483648 -> 0 <= o_div o d t v < 2147483648;
  rh_next : forall c k t, 0 <= t < T62 -> o_next o c k t < T62;
  rh_per : forall c, In c L -> 0 < per c < T62;
  rh_D : forall g, (length (B g) <= D)%nat }.
Hypothesis H : run_hyps.

Notation tt c k := (fst (sched o c (per c) k)).
Notation pp c k := (snd (sched o c (per c) k)).

Record cstate (h : heap) (tr : list event) (cur : Z) (c : Z) (k : nat) : Prop := {
  cs_time : c_time (h_clock h c) = cur;
  cs_next : c_nextTime (h_clock h c) = tt c k;
  cs_period : c_period (h_clock h c) = pp c k;
  cs_count : c_counter (h_clock h c) = u32 (Z.of_nat k);
  cs_trace : clock_trace c tr = map (fun i => tt c i) (seq 0 k) }.

Definition pending h tr cur c := exists k, cstate h tr cur c k /\ (forall i, (i < k)%nat -> tt c i < cur) /\ cur <= tt c k.
Definition done h tr cur c := exists k, cstate h tr cur c k /\ (forall i, (i < k)%nat -> tt c i <= cur) /\ cur < tt c k.

Record ginv0 (h : heap) (tr : list event) (cur : Z) : Prop := {
  gi_rep : rep h s;
  gi_cb : forall c, c_cb (h_clock h c) = cb c;
  gi_cur : x_currentTime (h_ctx h x) = cur;
  gi_rng : 0 <= cur < T62;
  gi_div : forall g d, In d (B g) ->
     div_iter (o_div o d) (dv0 d) (drive_times cb g tr) = Ok (h_div h d, div_trace d tr) /\ dgood (h_div h d) }.

(** Steps of the schedule go forward. *)
Lemma sched_step c k : In c L -> 0 < pp c k -> tt c k < tt c (S k) /\ 0 < pp c (S k) /\
  (tt c (S k) = if o_next o c (u32 (Z.of_nat k)) (tt c k) >? tt c k then o_next o c (u32 (Z.of_nat k)) (tt c k) else tt c k + pp c k) /\
  (pp c (S k) = if o_next o c (u32 (Z.of_nat k)) (tt c k) >? tt c k then o_next o c (u32 (Z.of_nat k)) (tt c k) - tt c k else pp c k).
Proof.
  intros Hc. cbn [sched]. destruct (sched o c (per c) k) as [t p]. cbn [fst snd]. intros P.
  destruct (Z.gtb_spec (o_next o c (u32 (Z.of_nat k)) t) t); cbn [fst snd]; lia.
Qed.

Lemma sched_ok c : In c L -> forall k, (forall i, (i < k)%nat -> tt c i < T62) -> 0 < pp c k < T62 /\ 0 <= tt c k.
Proof.
  intros Hc. induction k as [|k IH]; intros HT.
  - cbn. pose proof (rh_per H c Hc). lia.
  - destruct IH as (I1 & I2); [intros i Hi; apply HT; lia|].
    destruct (sched_step c k Hc ltac:(lia)) as (S1 & S2 & S3 & S4).
    split; [|lia]. split; [exact S2|]. rewrite S4. specialize (HT k ltac:(lia)). pose proof (rh_next H c (u32 (Z.of_nat k)) (tt c k) ltac:(lia)).
    destruct (Z.gtb_spec (o_next o c (u32 (Z.of_nat k)) (tt c k)) (tt c k)); lia.
Qed.

Lemma chk64_small z : -9223372036854775808 <= z <= 9223372036854775807 -> chk64 z = Ok z.
Proof. intros. unfold chk64. replace (in_s64 z) with true by (unfold in_s64; lia). reflexivity. Qed.

Lemma drives_groups c g : drives cb c g =
  match cb c with CbMaster x' => gid_eqb g (GBeat x') || gid_eqb g (GEffect x') | _ => false end || gid_eqb g (GClock c).
Proof.
  destruct g as [c'|x'|x']; cbn; destruct (cb c) as [|x''|]; cbn; rewrite ?Bool.orb_false_r; try reflexivity; apply Z.eqb_sym.
Qed.

(** Ticking one clock. *)
Lemma clock_tick h tr cur c fuel : ginv0 h tr cur -> In c L -> pending h tr cur c -> (D <= fuel)%nat ->
  exists h' evs, BKClockTick fuel o cur h tr c = Ok (h', tr ++ evs) /\ ginv0 h' (tr ++ evs) cur /\ done h' (tr ++ evs) cur c /\
    (forall y, y <> c -> h_clock h' y = h_clock h y /\ clock_trace y evs = []) /\
    x_deltaTime (h_ctx h' x) = x_deltaTime (h_ctx h x).
Proof.
  intros [R CB CU RN GI] Hc (k & [C1 C2 C3 C4 C5] & P1 & P2) HF. unfold BKClockTick, BKTimeIsEqual.
  rewrite C1, C2. destruct (sched_ok c Hc k ltac:(intros i Hi; specialize (P1 i Hi); lia)) as (SP & ST).
  destruct (Z.eqb_spec cur (tt c k)) as [EQ|NE].
  2:{ exists h, []. rewrite app_nil_r. split; [reflexivity|]. split; [constructor; assumption|]. split; [|split; [auto|reflexivity]].
      exists k. split; [constructor; assumption|]. split; [|lia]. intros i Hi. specialize (P1 i Hi). lia. }
  rewrite (CB c).
  set (tr1 := tr ++ [EvClock c cur]).
  assert (HO : forall d v, 1 <= v < 2147483648 -> 0 <= o_div o d cur v < 2147483648) by (intros; apply (rh_div H); assumption).
  pose (times := fun g => drive_times cb g tr).
  assert (G0 : ginv o cur dv0 B times (fun _ => false) h tr1).
  { intros g d Hd. unfold times, tr1. rewrite app_nil_r, div_trace_app. cbn. rewrite app_nil_r. apply GI. exact Hd. }
  (* groups of the master clock *)
  assert (STEP1 : exists h2 evs2,
     match cb c with
     | CbMaster x' => let* (h, tr) := BKDividerTick fuel o cur h tr1 (g_first (h_group h (GBeat x'))) in
                      BKDividerTick fuel o cur h tr (g_first (h_group h (GEffect x')))
     | _ => Ok (h, tr1) end = Ok (h2, tr1 ++ evs2) /\
     h_clock h2 = h_clock h /\ h_group h2 = h_group h /\ h_unit h2 = h_unit h /\ h_ctx h2 = h_ctx h /\
     dlinks_eq h h2 /\ (forall c, clock_trace c evs2 = []) /\ (forall cb g, drive_times cb g evs2 = []) /\
     ginv o cur dv0 B times (fun g => match cb c with CbMaster x' => gid_eqb g (GBeat x') || gid_eqb g (GEffect x') | _ => false end) h2 (tr1 ++ evs2)).
  { assert (NONE : exists h2 evs2, Ok (h, tr1) = Ok (h2, tr1 ++ evs2) /\
     h_clock h2 = h_clock h /\ h_group h2 = h_group h /\ h_unit h2 = h_unit h /\ h_ctx h2 = h_ctx h /\
     dlinks_eq h h2 /\ (forall c, clock_trace c evs2 = []) /\ (forall cb g, drive_times cb g evs2 = []) /\
     ginv o cur dv0 B times (fun g => false) h2 (tr1 ++ evs2)).
    { exists h, []. rewrite app_nil_r. split; [reflexivity|]. do 4 (split; [reflexivity|]). split; [split; auto|].
      split; [reflexivity|]. split; [reflexivity|exact G0]. }
    destruct (cb c) as [|x'|]; [exact NONE| |exact NONE].
    destruct (group_tick o cur dv0 B D HO (rh_D H) times _ h tr1 (GBeat x') fuel (rp_divs _ _ R) G0 eq_refl HF)
      as (h1 & e1 & E1 & A1 & A2 & A3 & A4 & A5 & A6 & A7 & A8).
    destruct (group_tick o cur dv0 B D HO (rh_D H) times _ h1 (tr1 ++ e1) (GEffect x') fuel (rep_divs_eq _ _ _ (rp_divs _ _ R) A5) A8 eq_refl HF)
      as (h2 & e2 & E2 & B1 & B2 & B3 & B4 & B5 & B6 & B7 & B8).
    exists h2, (e1 ++ e2). rewrite E1. cbn [bind]. rewrite E2, <- app_assoc in *. split; [reflexivity|].
    do 4 (split; [congruence|]). split.
    { destruct A5 as [a1 a2], B5 as [b1 b2]. split; [|intros; rewrite b2, a2; reflexivity].
      intros y. destruct (a1 y) as (? & ? & ?), (b1 y) as (? & ? & ?). repeat split; congruence. }
    split; [intros; rewrite clock_trace_app, A6, B6; reflexivity|].
    split; [intros; rewrite drive_times_app, A7, B7; reflexivity|]. exact B8. }
  destruct STEP1 as (h2 & e2 & E2 & A1 & A2 & A3 & A4 & A5 & A6 & A7 & A8). rewrite E2. cbn [bind].
  assert (NG : (match cb c with CbMaster x' => gid_eqb (GClock c) (GBeat x') || gid_eqb (GClock c) (GEffect x') | _ => false end) = false)
    by (destruct (cb c); reflexivity).
  destruct (group_tick o cur dv0 B D HO (rh_D H) times _ h2 (tr1 ++ e2) (GClock c) fuel (rep_divs_eq _ _ _ (rp_divs _ _ R) A5) A8 NG HF)
      as (h3 & e3 & E3 & B1 & B2 & B3 & B4 & B5 & B6 & B7 & B8).
  rewrite E3. cbn [bind]. rewrite C3, C4. unfold BKTimeIsGreater.
  destruct (sched_step c k Hc ltac:(lia)) as (S1 & S2 & S3 & S4).
  set (nt := o_next o c (u32 (Z.of_nat k)) (tt c k)) in *. rewrite EQ. fold nt.
  assert (HN : nt < T62) by (apply (rh_next H); lia).
  assert (E4 : (let* (period, nextTime) :=
       if nt >? tt c k then let* per0 := BKTimeSub nt (tt c k) in Ok (per0, nt)
       else let* n := BKTimeAdd (tt c k) (pp c k) in Ok (pp c k, n) in
     Ok (set_clock h3 c (mk_clock (c_ctx (h_clock h c)) (c_prev (h_clock h c)) (c_next (h_clock h c)) period (tt c k) nextTime
            (u32 (u32 (Z.of_nat k) + 1)) (cb c)), (tr1 ++ e2) ++ e3)) =
     Ok (set_clock h3 c (mk_clock (c_ctx (h_clock h c)) (c_prev (h_clock h c)) (c_next (h_clock h c)) (pp c (S k)) (tt c k) (tt c (S k))
            (u32 (Z.of_nat (S k))) (cb c)), tr ++ ([EvClock c cur] ++ e2 ++ e3))).
  { rewrite S3, S4. unfold BKTimeSub, BKTimeAdd, tr1. rewrite <- !app_assoc.
    replace (u32 (u32 (Z.of_nat k) + 1)) with (u32 (Z.of_nat (S k)))
      by (unfold u32; rewrite Zplus_mod_idemp_l; f_equal; lia).
    destruct (Z.gtb_spec nt (tt c k)).
    - rewrite chk64_small by lia. reflexivity.
    - rewrite chk64_small by lia. reflexivity. }
  rewrite EQ in E4. rewrite E4. clear E4. eexists _, _. split; [reflexivity|]. rewrite <- EQ.
  set (h4 := set_clock h3 c _).
  assert (HC4 : forall y, y <> c -> h_clock h4 y = h_clock h y).
  { intros y Hy. unfold h4. hsimpl. unfold pupd. replace (y =? c) with false by lia. rewrite B1, A1. reflexivity. }
  assert (HC4c : h_clock h4 c = mk_clock (c_ctx (h_clock h c)) (c_prev (h_clock h c)) (c_next (h_clock h c)) (pp c (S k)) cur (tt c (S k))
            (u32 (Z.of_nat (S k))) (cb c)).
  { unfold h4. hsimpl. unfold pupd. rewrite Z.eqb_refl. reflexivity. }
  assert (X4 : h_ctx h4 = h_ctx h) by (unfold h4; hsimpl; congruence).
  assert (U4 : h_unit h4 = h_unit h) by (unfold h4; hsimpl; congruence).
  assert (DL : dlinks_eq h h4).
  { destruct A5 as [a1 a2], B5 as [b1 b2]. unfold h4. split; [|intros; hsimpl; rewrite b2, a2; reflexivity].
    intros y. destruct (a1 y) as (? & ? & ?), (b1 y) as (? & ? & ?). hsimpl. repeat split; congruence. }
  assert (CT : forall y, clock_trace y ([EvClock c cur] ++ e2 ++ e3) = if c =? y then [cur] else []).
  { intros y. rewrite !clock_trace_app, A6, B6. cbn. destruct (c =? y); reflexivity. }
  split; [|split; [|split; [|rewrite X4; reflexivity]]].
  - constructor.
    + destruct R as [R1 R2 R3]. split.
      * apply (rep_clocks_eq h); [exact R1|]. split; [|intros; rewrite X4; auto].
        intros y. unfold cn, cp. destruct (Z.eq_dec y c) as [->|Hy]; [rewrite HC4c; auto|rewrite HC4 by exact Hy; auto].
      * apply (rep_divs_eq h); assumption.
      * apply (rep_units_same h); auto. intros; rewrite X4; auto.
    + intros y. destruct (Z.eq_dec y c) as [->|Hy]; [rewrite HC4c; reflexivity|rewrite HC4 by exact Hy; apply CB].
    + rewrite X4. exact CU.
    + exact RN.
    + intros g d Hd. specialize (B8 g d Hd). cbv beta in B8. rewrite <- drives_groups in B8. unfold times in B8.
      rewrite !drive_times_app, A7, B7, !app_nil_r. unfold tr1 in B8. rewrite <- !app_assoc in B8.
      assert (HD4 : h_div h4 d = h_div h3 d) by reflexivity. rewrite HD4.
      cbn [drive_times flat_map]. rewrite app_nil_r. exact B8.
  - exists (S k). split; [|split].
    + constructor; try (rewrite HC4c; reflexivity).
      rewrite clock_trace_app, C5, CT, Z.eqb_refl. rewrite seq_S, map_app. cbn [map plus]. rewrite <- EQ. reflexivity.
    + intros i Hi. destruct (Nat.eq_dec i k) as [->|]; [lia|]. specialize (P1 i ltac:(lia)). lia.
    + lia.
  - intros y Hy. split; [apply HC4; exact Hy|]. rewrite CT. replace (c =? y) with false by lia. reflexivity.
Qed.

Lemma cstate_ext h h' tr evs cur c k : cstate h tr cur c k -> h_clock h' c = h_clock h c -> clock_trace c evs = [] ->
  cstate h' (tr ++ evs) cur c k.
Proof.
  intros [C1 C2 C3 C4 C5] E1 E2. constructor; try (rewrite E1; assumption).
  rewrite clock_trace_app, E2, app_nil_r. exact C5.
Qed.

(** Ticking the rest [l] of the clocks. *)
Lemma tick_rest cur : forall l l1 h tr fuel m, L = l1 ++ l -> ginv0 h tr cur ->
  (forall c, In c l1 -> done h tr cur c) -> (forall c, In c l -> pending h tr cur c) ->
  (length l + D <= fuel)%nat -> cur < m ->
  exists h' evs m', tick_loop fuel o cur h tr m (hd 0 l) = Ok (h', tr ++ evs, m') /\ ginv0 h' (tr ++ evs) cur /\
    (forall c, In c L -> done h' (tr ++ evs) cur c) /\ cur < m' <= m /\
    (forall c, In c l -> m' <= c_nextTime (h_clock h' c)) /\
    (m' = m \/ exists c, In c l /\ m' = c_nextTime (h_clock h' c)) /\
    (forall c, In c l1 -> h_clock h' c = h_clock h c) /\
    x_deltaTime (h_ctx h' x) = x_deltaTime (h_ctx h x).
Proof.
  induction l as [|c l IH]; intros l1 h tr fuel m EL GI DN PN HF Hm.
  - exists h, [], m. rewrite app_nil_r. split; [destruct fuel; reflexivity|]. split; [exact GI|].
    rewrite EL, app_nil_r. split; [exact DN|]. split; [lia|]. split; [contradiction|]. auto.
  - destruct fuel as [|fuel]; [cbn in HF; lia|].
    assert (Hc : In c L) by (rewrite EL; apply in_or_app; right; left; reflexivity).
    destruct (fam_dll _ _ _ _ _ _ _ (rp_clocks _ _ (gi_rep _ _ _ GI)) x (rh_x H)) as (F1 & F2 & F3 & F4).
    assert (C0 : c <> 0) by exact (dseg_nonnull _ _ _ _ _ _ F3 Hc).
    destruct (clock_tick h tr cur c (S fuel) GI Hc (PN c (or_introl eq_refl)) ltac:(cbn in HF; lia))
      as (h1 & e1 & E1 & G1 & D1 & O1 & T1).
    cbn [hd tick_loop]. unfold NULL. replace (c =? 0) with false by lia. rewrite E1. cbn [bind].
    rewrite EL in F4. assert (NDc := F4). apply NoDup_remove_2 in NDc.
    destruct D1 as (k & D1 & D2 & D3).
    assert (NX : c_next (h_clock h1 c) = hd 0 l).
    { destruct (fam_dll _ _ _ _ _ _ _ (rp_clocks _ _ (gi_rep _ _ _ G1)) x (rh_x H)) as (_ & _ & F3' & _).
      rewrite EL in F3'. apply dseg_app in F3' as (_ & F3'). cbn [dseg] in F3'. destruct F3' as (_ & _ & F3' & _). exact F3'. }
    rewrite NX. set (m1 := if BKTimeIsLess (c_nextTime (h_clock h1 c)) m then c_nextTime (h_clock h1 c) else m).
    assert (M1 : cur < m1 <= m /\ m1 <= c_nextTime (h_clock h1 c) /\ (m1 = m \/ m1 = c_nextTime (h_clock h1 c))).
    { unfold m1, BKTimeIsLess. rewrite (cs_next _ _ _ _ _ D1) in *. destruct (Z.ltb_spec (tt c k) m); lia. }
    destruct M1 as (M1 & M2 & M3).
    assert (NA : forall y, In y l1 \/ In y l -> y <> c) by (intros y Hy ->; apply NDc, in_or_app; tauto).
    destruct (IH (l1 ++ [c]) h1 (tr ++ e1) fuel m1) as (h2 & e2 & m2 & E2 & G2 & K1 & K2 & K3 & K4 & K5 & K6).
    + rewrite EL, <- app_assoc. reflexivity.
    + exact G1.
    + intros y Hy. apply in_app_or in Hy as [Hy|[<-|[]]].
      * destruct (DN y Hy) as (ky & Dy & Dy1 & Dy2). exists ky. split; [|auto].
        destruct (O1 y (NA y (or_introl Hy))) as (O1a & O1b). eapply cstate_ext; eauto.
      * exists k. auto.
    + intros y Hy. destruct (PN y (or_intror Hy)) as (ky & Dy & Dy1 & Dy2). exists ky. split; [|auto].
      destruct (O1 y (NA y (or_intror Hy))) as (O1a & O1b). eapply cstate_ext; eauto.
    + cbn in HF. lia.
    + lia.
    + exists h2, (e1 ++ e2), m2. rewrite app_assoc. split; [exact E2|]. split; [exact G2|]. split; [exact K1|].
      assert (K5c : h_clock h2 c = h_clock h1 c) by (apply K5, in_or_app; right; left; reflexivity).
      split; [lia|]. split; [|split; [|split]].
      * intros y [<-|Hy]; [rewrite K5c; lia|apply K3; exact Hy].
      * destruct K4 as [->|(y & Hy & E)]; [|right; exists y; split; [right; exact Hy|exact E]].
        destruct M3 as [->|M3]; [left; reflexivity|]. right. exists c. split; [left; reflexivity|]. rewrite K5c. exact M3.
      * intros y Hy. rewrite K5 by (apply in_or_app; left; exact Hy). apply O1. apply NA. left; exact Hy.
      * congruence.
Qed.

(** Advancing the clocks. *)
Lemma advance_rest q cur : 0 <= q < 4294967296 -> 0 <= cur < T62 ->
  forall l h p fuel, dseg (cn h) (cp h) p l 0 -> NoDup l -> (length l <= fuel)%nat ->
  (forall c, In c l -> c_time (h_clock h c) = cur) ->
  exists h', advance_loop fuel h q (hd 0 l) = Ok h' /\
    h_div h' = h_div h /\ h_group h' = h_group h /\ h_unit h' = h_unit h /\ h_ctx h' = h_ctx h /\
    (forall c, ~ In c l -> h_clock h' c = h_clock h c) /\
    (forall c, In c l -> let k := h_clock h c in
       h_clock h' c = mk_clock (c_ctx k) (c_prev k) (c_next k) (c_period k) (cur + q) (c_nextTime k) (c_counter k) (c_cb k)).
Proof.
  intros Hq Hcur. induction l as [|a l IH]; intros h p fuel S ND HF HT.
  - exists h. split; [destruct fuel; reflexivity|]. repeat split; auto; contradiction.
  - destruct S as (H0 & H1 & H2 & H3). destruct fuel as [|fuel]; [cbn in HF; lia|].
    inversion ND as [|? ? NA ND']; subst.
    cbn [hd advance_loop]. unfold NULL. replace (a =? 0) with false by lia.
    unfold BKTimeAddFUInt20. rewrite (HT a (or_introl eq_refl)), chk64_small by lia. cbn [bind].
    set (h1 := set_clock h a _).
    assert (OT : forall y, y <> a -> h_clock h1 y = h_clock h y) by (intros y Hy; unfold h1; hsimpl; unfold pupd; replace (y =? a) with false by lia; reflexivity).
    destruct (IH h1 a fuel) as (h2 & E2 & G1 & G2 & G3 & G4 & G5 & G6).
    + apply (dseg_ext (cn h) (cp h)); [exact H3|]. intros y _. unfold cn, cp. destruct (Z.eq_dec y a) as [->|Hy];
        [unfold h1; hsimpl; unfold pupd; rewrite Z.eqb_refl; auto|rewrite OT by exact Hy; auto].
    + exact ND'.
    + cbn in HF; lia.
    + intros y Hy. rewrite OT by (intros ->; contradiction). apply HT. right; exact Hy.
    + exists h2. unfold cn in H2. rewrite H2. split; [exact E2|].
      split; [rewrite G1; reflexivity|]. split; [rewrite G2; reflexivity|]. split; [rewrite G3; reflexivity|]. split; [rewrite G4; reflexivity|].
      split.
      * intros y Hy. cbn [In] in Hy. rewrite G5, OT by intuition congruence. reflexivity.
      * intros y [<-|Hy]; cbv zeta.
        -- rewrite G5 by exact NA. unfold h1. hsimpl. unfold pupd. rewrite Z.eqb_refl. reflexivity.
        -- rewrite (G6 y Hy). rewrite OT by (intros ->; contradiction). reflexivity.
Qed.

Definition rinv h tr cur := ginv0 h tr cur /\ forall c, In c L -> pending h tr cur c.

Lemma clocks_advance h tr cur fuel : rinv h tr cur -> L <> [] -> (length L + D <= fuel)%nat ->
  cur + 715827882 < T62 ->
  exists h' evs q, BKClocksAdvance fuel o h tr x = Ok (h', tr ++ evs, q) /\ 1 <= q <= 715827882 /\ rinv h' (tr ++ evs) (cur + q) /\
    x_deltaTime (h_ctx h' x) = x_deltaTime (h_ctx h x).
Proof.
  intros (GI & PN) NE HF HC. unfold BKClocksAdvance.
  set (h0 := set_ctx h x (ctx_set_reset (h_ctx h x) false)).
  assert (X0 : forall y, x_firstClock (h_ctx h0 y) = x_firstClock (h_ctx h y) /\ x_lastClock (h_ctx h0 y) = x_lastClock (h_ctx h y) /\
     x_firstUnit (h_ctx h0 y) = x_firstUnit (h_ctx h y) /\ x_lastUnit (h_ctx h0 y) = x_lastUnit (h_ctx h y) /\
     x_deltaTime (h_ctx h0 y) = x_deltaTime (h_ctx h y) /\ x_currentTime (h_ctx h0 y) = x_currentTime (h_ctx h y)).
  { intros y. unfold h0. hsimpl. unfold pupd. destruct (Z.eqb_spec y x) as [->|]; hsimpl; repeat split; reflexivity. }
  assert (G0 : ginv0 h0 tr cur).
  { destruct GI as [R CB CU RN GD]. constructor; auto.
    - destruct R as [R1 R2 R3]. split.
      + apply (rep_clocks_same h); auto. intros y. destruct (X0 y) as (? & ? & _); auto.
      + apply (rep_divs_same h); auto.
      + apply (rep_units_same h); auto. intros y. destruct (X0 y) as (_ & _ & ? & ? & _); auto.
    - destruct (X0 x) as (_ & _ & _ & _ & _ & ->). exact CU. }
  assert (P0 : forall c, In c L -> pending h0 tr cur c).
  { intros c Hc. destruct (PN c Hc) as (k & K1 & K2). exists k. split; [|exact K2]. destruct K1; constructor; assumption. }
  assert (RN := gi_rng _ _ _ GI).
  destruct (fam_dll _ _ _ _ _ _ _ (rp_clocks _ _ (gi_rep _ _ _ G0)) x (rh_x H)) as (F1 & F2 & F3 & F4).
  rewrite (gi_cur _ _ _ G0). cbv beta in F1. rewrite F1.
  destruct (tick_rest cur L [] h0 tr fuel BK_TIME_MAX eq_refl G0 ltac:(intros c []) P0 HF ltac:(unfold BK_TIME_MAX; lia))
    as (h1 & evs & m & E1 & G1 & K1 & K2 & K3 & K4 & _ & K6).
  rewrite E1. cbn [bind]. rewrite (gi_cur _ _ _ G1). unfold BK_TIME_MAX in K2, K4.
  unfold BKTimeSub. rewrite chk64_small by lia. cbn [bind].
  destruct (fam_dll _ _ _ _ _ _ _ (rp_clocks _ _ (gi_rep _ _ _ G1)) x (rh_x H)) as (F1' & F2' & F3' & F4').
  cbv beta in F1'. rewrite F1'.
  set (q := if BKTimeIsLessFUInt20 (m - cur) (BK_INT_MAX / 3) then BKTimeGetFUInt20 (m - cur) else BK_INT_MAX / 3).
  assert (Q : 1 <= q <= 715827882 /\ cur + q <= m).
  { unfold q, BKTimeIsLessFUInt20, BKTimeGetFUInt20, BK_INT_MAX. change (2147483647 / 3) with 715827882.
    destruct (Z.ltb_spec (m - cur) 715827882); [rewrite u32_small by lia|]; lia. }
  destruct (advance_rest q cur ltac:(lia) RN L h1 0 fuel F3' F4' ltac:(lia)) as (h2 & E2 & A1 & A2 & A3 & A4 & A5 & A6).
  { intros c Hc. destruct (K1 c Hc) as (k & D1 & _). apply (cs_time _ _ _ _ _ D1). }
  rewrite E2. cbn [bind]. rewrite A4. unfold BKTimeAddFUInt20. rewrite (gi_cur _ _ _ G1), chk64_small by lia. cbn [bind].
  eexists _, evs, q. split; [reflexivity|]. split; [lia|].
  set (h3 := set_ctx h2 x _).
  assert (X3 : forall y, x_firstClock (h_ctx h3 y) = x_firstClock (h_ctx h1 y) /\ x_lastClock (h_ctx h3 y) = x_lastClock (h_ctx h1 y) /\
     x_firstUnit (h_ctx h3 y) = x_firstUnit (h_ctx h1 y) /\ x_lastUnit (h_ctx h3 y) = x_lastUnit (h_ctx h1 y) /\
     x_deltaTime (h_ctx h3 y) = x_deltaTime (h_ctx h1 y)).
  { intros y. unfold h3. hsimpl. rewrite A4. unfold pupd. destruct (Z.eqb_spec y x) as [->|]; hsimpl; repeat split; reflexivity. }
  assert (CL : forall c, c_ctx (h_clock h3 c) = c_ctx (h_clock h1 c) /\ cn h3 c = cn h1 c /\ cp h3 c = cp h1 c /\ c_cb (h_clock h3 c) = c_cb (h_clock h1 c)).
  { intros c. unfold cn, cp, h3. cbn [h_clock set_ctx]. destruct (in_dec Z.eq_dec c L) as [I0|N0].
    - rewrite (A6 c I0). repeat split; reflexivity.
    - rewrite (A5 c N0). repeat split; reflexivity. }
  split; [|destruct (X3 x) as (_ & _ & _ & _ & ->); rewrite K6; destruct (X0 x) as (_ & _ & _ & _ & -> & _); reflexivity].
  split.
  - destruct G1 as [R CB CU RN' GD]. constructor.
    + destruct R as [R1 R2 R3]. split.
      * apply (rep_clocks_eq h1); auto. split; intros y; [destruct (CL y) as (? & ? & ? & _); auto|destruct (X3 y) as (? & ? & _); auto].
      * apply (rep_divs_same h1); auto.
      * apply (rep_units_same h1); auto. intros y. destruct (X3 y) as (_ & _ & ? & ? & _); auto.
    + intros c. destruct (CL c) as (_ & _ & _ & ->). apply CB.
    + unfold h3. hsimpl. unfold pupd. rewrite Z.eqb_refl. reflexivity.
    + lia.
    + intros g d Hd. unfold h3. cbn [h_div set_ctx]. rewrite A1. apply GD. exact Hd.
  - intros c Hc. destruct (K1 c Hc) as (k & D1 & D2 & D3). exists k. destruct D1 as [c1 c2 c3 c4 c5].
    assert (EC : h_clock h3 c = h_clock h2 c) by reflexivity.
    split; [|split].
    + constructor; try (rewrite EC, (A6 c Hc); cbn [c_time c_nextTime c_period c_counter]; auto; fail). exact c5.
    + intros i Hi. specialize (D2 i Hi). lia.
    + specialize (K3 c Hc). rewrite c2 in K3. lia.
Qed.

(** [BKContextRun] and [BKContextEnd]. *)
Lemma run_loop_ok endTime : 0 <= endTime < 2147483648 -> L <> [] -> forall fuel, (length L + D <= fuel)%nat ->
  forall n h tr cur time, rinv h tr cur -> 0 <= time < endTime + 715827882 -> endTime - time <= Z.of_nat n -> cur + (endTime + 715827882 - time) < T62 ->
  exists h' evs time', run_loop n fuel o h tr x time endTime = Ok (h', tr ++ evs, time') /\
    rinv h' (tr ++ evs) (cur + (time' - time)) /\ endTime <= time' /\ time <= time' < endTime + 715827882 /\
    x_deltaTime (h_ctx h' x) = x_deltaTime (h_ctx h x).
Proof.
  intros He NE fuel HF. induction n as [|n IH]; intros h tr cur time RI Ht Hn HC; cbn [run_loop]; destruct (Z.ltb_spec time endTime); try lia.
  - exists h, [], time. rewrite app_nil_r, Z.sub_diag, Z.add_0_r. split; [reflexivity|]. split; [exact RI|]. split; [lia|]. split; [lia|reflexivity].
  - destruct (clocks_advance h tr cur fuel RI NE HF ltac:(lia)) as (h1 & e1 & q & E1 & Q & RI1 & T1).
    rewrite E1. cbn [bind]. rewrite u32_small by lia.
    destruct (IH h1 (tr ++ e1) (cur + q) (time + q) RI1 ltac:(lia) ltac:(lia) ltac:(lia)) as (h2 & e2 & time' & E2 & RI2 & B1 & B2 & T2).
    exists h2, (e1 ++ e2), time'. rewrite app_assoc. split; [exact E2|].
    replace (cur + (time' - time)) with (cur + q + (time' - (time + q))) by lia. split; [exact RI2|]. split; [lia|]. split; [lia|congruence].
  - exists h, [], time. rewrite app_nil_r, Z.sub_diag, Z.add_0_r. split; [reflexivity|]. split; [exact RI|]. split; [lia|]. split; [lia|reflexivity].
Qed.

Lemma rinv_set_delta h tr cur t : rinv h tr cur -> rinv (set_ctx h x (ctx_set_time (h_ctx h x) t (x_currentTime (h_ctx h x)))) tr cur.
Proof.
  intros (GI & PN). set (h3 := set_ctx h x _).
  assert (X3 : forall y, x_firstClock (h_ctx h3 y) = x_firstClock (h_ctx h y) /\ x_lastClock (h_ctx h3 y) = x_lastClock (h_ctx h y) /\
     x_firstUnit (h_ctx h3 y) = x_firstUnit (h_ctx h y) /\ x_lastUnit (h_ctx h3 y) = x_lastUnit (h_ctx h y) /\
     x_currentTime (h_ctx h3 y) = x_currentTime (h_ctx h y)).
  { intros y. unfold h3. hsimpl. unfold pupd. destruct (Z.eqb_spec y x) as [->|]; hsimpl; repeat split; reflexivity. }
  split.
  - destruct GI as [R CB CU RN GD]. constructor; auto.
    + destruct R as [R1 R2 R3]. split.
      * apply (rep_clocks_same h); auto. intros y. destruct (X3 y) as (? & ? & _); auto.
      * apply (rep_divs_same h); auto.
      * apply (rep_units_same h); auto. intros y. destruct (X3 y) as (_ & _ & ? & ? & _); auto.
    + destruct (X3 x) as (_ & _ & _ & _ & ->). exact CU.
  - intros c Hc. destruct (PN c Hc) as (k & K1 & K2). exists k. split; [|exact K2]. destruct K1; constructor; assumption.
Qed.

Lemma context_end_ok n fuel h tr cur endTime : rinv h tr cur -> L <> [] -> 0 <= endTime < 2147483648 -> endTime <= Z.of_nat n ->
  (length L + D <= fuel)%nat -> 0 <= x_deltaTime (h_ctx h x) < 715827882 -> cur + endTime + 715827882 < T62 ->
  exists h' evs, BKContextEnd n fuel o h tr x endTime = Ok (h', tr ++ evs) /\
    let cur' := cur - x_deltaTime (h_ctx h x) + endTime + x_deltaTime (h_ctx h' x) in
    rinv h' (tr ++ evs) cur' /\ 0 <= x_deltaTime (h_ctx h' x) < 715827882.
Proof.
  intros RI NE He Hn HF HD HC. unfold BKContextEnd, BKContextRun.
  destruct (fam_dll _ _ _ _ _ _ _ (rp_clocks _ _ (gi_rep _ _ _ (proj1 RI))) x (rh_x H)) as (F1 & F2 & F3 & F4).
  cbv beta in F1. rewrite F1. unfold NULL.
  destruct (hd_in_or_zero L) as [Z0|I0]; [exfalso; destruct L as [|a l] eqn:EL; [congruence|]; cbn in Z0;
     apply (dseg_nonnull _ _ _ _ _ a F3); [left; reflexivity|exact Z0]|].
  assert (HN := dseg_nonnull _ _ _ _ _ _ F3 I0). replace (hd 0 L =? 0) with false by lia. cbn [negb].
  set (d := x_deltaTime (h_ctx h x)) in *.
  destruct (run_loop_ok endTime He NE fuel HF n h tr cur d RI ltac:(lia) ltac:(lia) ltac:(lia)) as (h1 & evs & time' & E1 & RI1 & B1 & B2 & _).
  rewrite E1. cbn [bind]. set (h2 := set_ctx h1 x _).
  assert (T2 : x_deltaTime (h_ctx h2 x) = time') by (unfold h2; hsimpl; unfold pupd; rewrite Z.eqb_refl; reflexivity).
  eexists _, evs. split; [reflexivity|]. set (h3 := set_ctx h2 x _).
  assert (T3 : x_deltaTime (h_ctx h3 x) = time' - endTime).
  { unfold h3. hsimpl. unfold pupd. rewrite Z.eqb_refl. hsimpl. rewrite T2. apply u32_small. lia. }
  rewrite T3. split; [|lia].
  replace (cur - d + endTime + (time' - endTime)) with (cur + (time' - d)) by lia.
  apply rinv_set_delta. apply rinv_set_delta. exact RI1.
Qed.

Definition Zsum (l : list Z) : Z := fold_right Z.add 0 l.

Lemma run_ends_ok fuel n : L <> [] -> (length L + D <= fuel)%nat -> forall ends h tr cur,
  rinv h tr cur -> (forall e, In e ends -> 0 <= e < 2147483648 /\ e <= Z.of_nat n) ->
  0 <= x_deltaTime (h_ctx h x) < 715827882 -> cur - x_deltaTime (h_ctx h x) + Zsum ends + 1431655764 < T62 ->
  exists h' evs, run_ends n fuel o h tr x ends = Ok (h', tr ++ evs) /\
    rinv h' (tr ++ evs) (cur - x_deltaTime (h_ctx h x) + Zsum ends + x_deltaTime (h_ctx h' x)) /\
    0 <= x_deltaTime (h_ctx h' x) < 715827882.
Proof.
  intros NE HF. induction ends as [|e ends IH]; intros h tr cur RI HE HD HC; cbn [run_ends Zsum fold_right] in *.
  - exists h, []. rewrite app_nil_r. split; [reflexivity|]. split; [|exact HD].
    replace (cur - x_deltaTime (h_ctx h x) + 0 + x_deltaTime (h_ctx h x)) with cur by lia. exact RI.
  - assert (SP : 0 <= Zsum ends).
    { clear - HE. assert (HE' : forall e, In e ends -> 0 <= e) by (intros; apply HE; right; assumption). clear HE.
      induction ends as [|a l IH]; cbn; [lia|]. pose proof (HE' a (or_introl eq_refl)).
      assert (0 <= Zsum l) by (apply IH; intros; apply HE'; right; assumption). unfold Zsum in *. lia. }
    fold (Zsum ends) in *.
    destruct (HE e (or_introl eq_refl)) as (HE1 & HE2).
    destruct (context_end_ok n fuel h tr cur e RI NE HE1 HE2 HF HD ltac:(lia)) as (h1 & e1 & E1 & RI1 & HD1).
    rewrite E1. cbn [bind].
    destruct (IH h1 (tr ++ e1) _ RI1 ltac:(intros; apply HE; right; assumption) HD1 ltac:(lia)) as (h2 & e2 & E2 & RI2 & HD2).
    exists h2, (e1 ++ e2). rewrite app_assoc. split; [exact E2|]. split; [|exact HD2].
    match goal with |- rinv _ _ ?a => match type of RI2 with rinv _ _ ?b => replace a with b by lia end end. exact RI2.
Qed.
End Run.
