(** Properties C21-C26: value sequences, envelopes and instruments. *)
From Verif Require Import CIntFacts SequenceModel SequenceSpec SequenceProofs EnvelopeProofs EnvelopeProofs2 InstrumentProofs.
Ltac Zify.zify_post_hook ::= idtac.

Lemma srun_app fuel sq ops1 : forall st ops2, srun fuel sq st (ops1 ++ ops2) =
  let* (st1, l1) := srun fuel sq st ops1 in let* (st2, l2) := srun fuel sq st1 ops2 in Ok (st2, l1 ++ l2).
Proof.
  induction ops1 as [|o ops1 IH]; intros st ops2; cbn [srun app bind].
  - destruct (srun fuel sq st ops2) as [(a & b)|e]; reflexivity.
  - destruct (sstep fuel sq st o) as [(s1 & r)|e]; cbn [bind]; [|reflexivity]. rewrite IH.
    destruct (srun fuel sq s1 ops1) as [(s2 & l)|e]; cbn [bind]; [|reflexivity].
    destruct (srun fuel sq s2 ops2) as [(s3 & l')|e]; reflexivity.
Qed.

Lemma srun_last fuel sq ops : forall st st' outs, srun fuel sq st ops = Ok (st', outs) -> st_value st' = fst (last outs (st_value st, 0)).
Proof.
  induction ops as [|o ops IH]; intros st st' outs E; cbn [srun] in E.
  - injection E as <- <-. reflexivity.
  - destruct (sstep fuel sq st o) as [(s1 & r)|e]; cbn [bind] in E; [|discriminate].
    destruct (srun fuel sq s1 ops) as [(s2 & l)|e] eqn:E1; cbn [bind] in E; [|discriminate]. injection E as <- <-.
    rewrite (IH _ _ _ E1). destruct l as [|x l]; [reflexivity|]. cbn [last]. clear. revert x. induction l as [|y l IH]; intros x; [reflexivity|]. cbn [last]. apply IH.
Qed.
Lemma srun_length fuel sq ops : forall st st' outs, srun fuel sq st ops = Ok (st', outs) -> length outs = length ops.
Proof.
  induction ops as [|o ops IH]; intros st st' outs E; cbn [srun] in E.
  - injection E as <- <-. reflexivity.
  - destruct (sstep fuel sq st o) as [(s1 & r)|e]; cbn [bind] in E; [|discriminate].
    destruct (srun fuel sq s1 ops) as [(s2 & l)|e] eqn:E1; cbn [bind] in E; [|discriminate]. injection E as <- <-. cbn. rewrite (IH _ _ _ E1). reflexivity.
Qed.

Lemma last_cons {A} (m : list A) : forall b r, last (b :: m) r = last m b.
Proof. induction m as [|x m IH]; intros b r; [reflexivity|]. change (last (x :: m) r = last (x :: m) b). rewrite !IH. reflexivity. Qed.
Lemma last_snd (l : list (Z * Z)) : forall v r d, snd (last ((v, r) :: l) d) = last (map snd l) r.
Proof.
  induction l as [|(a & b) l IH]; intros v r d; [reflexivity|]. change (snd (last ((a, b) :: l) d) = last (b :: map snd l) r).
  rewrite IH, last_cons. reflexivity.
Qed.

(** ** C21: value sequences *)

(** Any sequence and sustain range; [o] and [l] is the range cut to the length.
    Attack, [n] steps, release, [m] steps.  After the attack the values are
    visited in the order of [attack_index], after the release in the order of
    [release_index].  Codes: 0 nothing, 1 step, 2 sustain part restarted, 4 end,
    which is reported once. *)
Theorem sequence_plays vals so sl st fuel n m :
  0 < Z.of_nat (length vals) < 2 ^ 28 ->
  let len := length vals in
  let o := Z.to_nat (Z.min (u32 so) (Z.of_nat len)) in
  let l := Z.to_nat (Z.min (u32 sl) (Z.of_nat (len - o))) in
  let sq := BKSequenceFuncSimpleCreate vals so sl in
  let attack k := visited vals (attack_index o l) (hd 0 vals) k in
  let held := match n with O => hd 0 vals | S n => attack n end in
  let release k := match nth_error vals (o + l + k) with Some v => v | None => if (o + l =? len)%nat then held else last vals 0 end in
  exists st', srun fuel sq st (SPhase 1 :: repeat (SStep 1) n ++ SPhase 2 :: repeat (SStep 1) m) = Ok (st',
    (hd 0 vals, 0) ::
    map (fun k => (attack k, if (attack_index o l k <? len)%nat
                             then if (o + l <=? k)%nat && ((k - o) mod Nat.max 1 l =? 0)%nat then 2 else 1
                             else if (k =? len)%nat then 4 else 0)) (seq 0 n) ++
    (release 0%nat, if (o + l =? len)%nat then 4 else 0) ::
    map (fun k => (release k, if (o + l + k <? len)%nat then 1 else if (o + l + k =? len)%nat && negb (o + l =? len)%nat then 4 else 0)) (seq 0 m)).
Proof.
  intros HL len o l sq attack held release. destruct (simple_create_wf vals so sl ltac:(lia)) as (V & W).
  change (clamp_so (length vals) so) with o in W. change (clamp_sl (length vals) so sl) with l in W. fold sq in V, W.
  destruct (attack_begin vals sq o l W V fuel st ltac:(lia)) as (st1 & E1 & A1 & V1).
  destruct (attack_run vals sq o l W V (hd 0 vals) 0 st1 fuel A1 n) as (st2 & E2 & A2).
  assert (H2 : st_value st2 = held).
  { pose proof (srun_last _ _ _ _ _ _ E2) as H. rewrite H. unfold held. destruct n as [|n]; [exact V1|].
    rewrite seq_S, map_app. cbn [map]. rewrite last_last. reflexivity. }
  destruct (release_begin vals sq o l W V fuel st2) as (st3 & E3 & A3 & V3).
  destruct (release_run vals sq o l W V (st_value st2) 0 st3 fuel A3 m) as (st4 & E4 & A4). rewrite H2 in *.
  assert (NE : vals <> []) by (destruct vals; [cbn in HL; lia|discriminate]).
  assert (LA : forall a b, last vals a = last vals b).
  { intros a b. destruct vals as [|x t]; [contradiction|]. clear. revert x. induction t as [|y t IH]; intros x; [reflexivity|]. apply (IH y). }
  assert (ER : forall k, release_value vals o l held k = release k).
  { intros k. unfold release_value, release. fold len. destruct (nth_error vals (o + l + k)); [reflexivity|]. destruct (o + l =? len)%nat; [reflexivity|apply LA]. }
  assert (LT : forall {A} (q : nat) (x y : A), match nth_error vals q with Some _ => x | None => y end = if (q <? len)%nat then x else y).
  { intros A q x y. destruct (Nat.ltb_spec q len) as [H|H].
    - destruct (nth_error vals q) eqn:E; [reflexivity|]. apply nth_error_None in E. fold len in E. lia.
    - rewrite (proj2 (nth_error_None vals q)) by (fold len; lia). reflexivity. }
  exists st4. cbn [srun sstep]. rewrite E1. cbn [bind]. rewrite srun_app, E2. cbn [bind srun sstep]. rewrite E3. cbn [bind]. rewrite E4. cbn [bind].
  rewrite V1, V3, ER. fold len. f_equal. f_equal. f_equal. f_equal; [|f_equal].
  - apply map_ext. intros k. unfold attack_code. rewrite LT. reflexivity.
  - apply map_ext. intros k. rewrite ER. unfold release_code. rewrite LT. reflexivity.
Qed.

Example sequence_plays_example :
  exists st', srun 0 (BKSequenceFuncSimpleCreate [10; 20; 30; 40; 50] 1 2) sstate_zero (SPhase 1 :: repeat (SStep 1) 6 ++ SPhase 2 :: repeat (SStep 1) 4) = Ok (st',
    [(10, 0); (10, 1); (20, 1); (30, 1); (20, 2); (30, 1); (20, 2); (40, 0); (40, 1); (50, 1); (50, 4); (50, 0)]).
Proof. eexists. vm_compute. reflexivity. Qed.

(** The values are never accessed outside: every history of calls is defined. *)
Theorem sequence_safe vals so sl fuel ops : Z.of_nat (length vals) < 2 ^ 28 ->
  exists st' outs, srun fuel (BKSequenceFuncSimpleCreate vals so sl) sstate_zero ops = Ok (st', outs).
Proof.
  intros HL. destruct (simple_create_wf vals so sl HL) as (V & W).
  destruct (simple_safe vals _ _ _ W V fuel ops sstate_zero) as (st' & l & E & _); [right; cbn; lia|]. eauto.
Qed.
Example sequence_safe_example : exists st' outs, srun 0 (BKSequenceFuncSimpleCreate [1; 2] 7 (-3)) sstate_zero
  [SStep 1; SPhase 2; SStep 1; SPhase 0; SStep 5; SValue 9; SPhase 7; SPhase 1; SStep 0; SStep 1; SStep 1; SStep 1] = Ok (st', outs) /\ length outs = 12%nat.
Proof. eexists _, _. vm_compute. split; reflexivity. Qed.

(** ** C22: envelopes *)

(** Values which appear in an envelope, or smaller ones. *)
Definition small_value (phases : list sphase) (v : Z) : Prop := v = 0 \/ exists p, In p phases /\ Z.abs v <= Z.abs (ph_value p).
Definition small_op (phases : list sphase) (o : sop) : Prop :=
  match o with SPhase _ => True | SStep l => 0 <= l | SValue v => small_value phases v end.
Definition modest (phases : list sphase) : Prop :=
  Z.of_nat (length phases) < 2 ^ 28 /\ forall p, In p phases -> Z.abs (ph_value p) < 2 ^ 30 /\ 0 <= ph_steps p < 2 ^ 31.

Record env_facts (phases : list sphase) (so sl : nat) (sq : sequence) : Prop := {
  ef_wf : seq_wf sq (length phases) so sl;
  ef_v : sq_values sq = VEnvelope phases;
  ef_tt : takes_time phases so sl;
  ef_fs : 0 <= sq_fracShift sq <= 30;
  ef_b : forall p, In p phases -> Z.abs (ph_value p) * 2 ^ sq_fracShift sq <= 2 ^ 30 - 2 ^ sq_fracShift sq /\ 0 <= ph_steps p < 2 ^ 31 }.

Lemma env_facts_create phases so sl sq code : modest phases -> BKSequenceFuncEnvelopeCreate phases so sl = Ok (Some sq, code) ->
  env_facts phases (clamp_so (length phases) so) (clamp_sl (length phases) so sl) sq.
Proof.
  intros (HL & HB) E. destruct (envelope_create_wf phases so sl sq code HL E) as (_ & V & W & TT & F).
  destruct (frac_shift_bound phases ltac:(intros p Hp; apply HB; exact Hp)) as (fs & F' & FS & FB). assert (fs = sq_fracShift sq) by congruence. subst fs.
  constructor; auto. intros p Hp. split; [apply FB; exact Hp|apply HB; exact Hp].
Qed.
Lemma small_bounded phases so sl sq o : env_facts phases so sl sq -> small_op phases o -> bounded_op sq o.
Proof.
  intros EF. destruct o as [p|l|v]; cbn [bounded_op small_op]; auto. pose proof (pow_fs2 sq (ef_fs _ _ _ _ EF)) as PF. cbv zeta in PF.
  intros [->|(p & Hp & HV)].
  - cbn [Z.abs Z.mul]. pose proof (ef_fs _ _ _ _ EF) as FS. pose proof (Z.pow_le_mono_r 2 (sq_fracShift sq) 30 ltac:(lia) ltac:(lia)). lia.
  - pose proof (ef_b _ _ _ _ EF p Hp) as (B & _). nia.
Qed.
Lemma env_history phases so sl sq fuel ops : env_facts phases so sl sq -> (2 * length phases < fuel)%nat -> (forall o, In o ops -> small_op phases o) ->
  exists st outs, srun fuel sq sstate_zero ops = Ok (st, outs) /\ steady phases sq st.
Proof.
  intros EF HF HO. destruct (steady_run phases sq so sl (ef_wf _ _ _ _ EF) (ef_v _ _ _ _ EF) (ef_tt _ _ _ _ EF) (ef_fs _ _ _ _ EF) (ef_b _ _ _ _ EF) fuel ops HF sstate_zero) as (st & l & E & S).
  - apply steady_zero. apply (ef_fs _ _ _ _ EF).
  - intros o Ho. eapply small_bounded; eauto.
  - eauto.
Qed.

(** After any history of calls on an envelope the attack is started, then [t]
    ticks are done.  The phases visited are those of [attack_index]; phase [i]
    begins at tick [begin_at i], that is after the steps of all visited phases
    before, with the value reached by the phase before, and stays between this
    value and its own target.  Missing: [2 ^ 31] and more steps, values of
    [2 ^ 30] and more. *)
Theorem envelope_attack_partial phases so sl sq code fuel ops st outs levels :
  modest phases -> BKSequenceFuncEnvelopeCreate phases so sl = Ok (Some sq, code) ->
  (forall o, In o ops -> small_op phases o) -> (forall l, In l levels -> 0 <= l) -> (2 * length phases < fuel)%nat ->
  srun fuel sq sstate_zero ops = Ok (st, outs) ->
  let o := Z.to_nat (Z.min (u32 so) (Z.of_nat (length phases))) in
  let l := Z.to_nat (Z.min (u32 sl) (Z.of_nat (length phases - o))) in
  let idx := attack_index o l in
  let t := Z.of_nat (length levels) in
  exists st' outs', srun fuel sq st (SPhase 1 :: map SStep levels) = Ok (st', outs') /\
    let code := snd (last outs' (0, 0)) in
    (forall i, begin_at phases idx i <= t < begin_at phases idx (S i) ->
      between (start_value phases idx (st_value st) i) (st_value st') (target_value phases idx i) /\
      (t = begin_at phases idx i -> st_value st' = start_value phases idx (st_value st) i) /\ (code = 1 \/ code = 2)) /\
    (forall i, phase_at phases idx i = None -> (forall j, (j < i)%nat -> phase_at phases idx j <> None) -> begin_at phases idx i <= t ->
      st_value st' = start_value phases idx (st_value st) i /\ code = (if t =? begin_at phases idx i then 4 else 0)).
Proof.
  intros HM EC HO HL HF ER o l idx t. pose proof (env_facts_create _ _ _ _ _ HM EC) as EF.
  change (clamp_so (length phases) so) with o in EF. change (clamp_sl (length phases) so sl) with l in EF.
  destruct (env_history _ _ _ _ fuel ops EF HF HO) as (st0 & outs0 & E0 & S0). assert (st0 = st) by congruence. subst st0.
  destruct EF as [W V TT FS HB]. pose proof S0 as (C & _).
  destruct (attack_phase phases sq o l W V TT FS HB st fuel C HF) as (st1 & r1 & E1 & A1 & N1).
  destruct (attack_ticks phases sq o l W V TT FS HB _ levels 0 st1 r1 fuel A1 HL HF) as (st2 & outs2 & E2 & A2).
  exists st2. eexists. split.
  - cbn [srun sstep]. rewrite E1. cbn [bind]. rewrite E2. cbn [bind]. reflexivity.
  - rewrite Z.add_0_l in A2. fold t in A2.
    assert (EL : forall d, snd (last ((st_value st1, r1) :: outs2) d) = last (map snd outs2) r1).
    { intros d. apply last_snd. }
    rewrite EL. pose proof W as (W1 & W2 & W3 & W4 & W5). destruct C as (C1 & _). rewrite C1.
    apply (at_time_value phases sq FS HB 1 idx); [|exact A2]. intros i. apply attack_none_stays. exact W4.
Qed.

(** The same for the release; it visits the phases after the sustain part and ends. *)
Theorem envelope_release_partial phases so sl sq code fuel ops st outs levels :
  modest phases -> BKSequenceFuncEnvelopeCreate phases so sl = Ok (Some sq, code) ->
  (forall o, In o ops -> small_op phases o) -> (forall l, In l levels -> 0 <= l) -> (2 * length phases < fuel)%nat ->
  srun fuel sq sstate_zero ops = Ok (st, outs) ->
  let o := Z.to_nat (Z.min (u32 so) (Z.of_nat (length phases))) in
  let l := Z.to_nat (Z.min (u32 sl) (Z.of_nat (length phases - o))) in
  let idx := release_index o l in
  let t := Z.of_nat (length levels) in
  exists st' outs', srun fuel sq st (SPhase 2 :: map SStep levels) = Ok (st', outs') /\
    let code := snd (last outs' (0, 0)) in
    (forall i, begin_at phases idx i <= t < begin_at phases idx (S i) ->
      between (start_value phases idx (st_value st) i) (st_value st') (target_value phases idx i) /\
      (t = begin_at phases idx i -> st_value st' = start_value phases idx (st_value st) i) /\ (code = 1 \/ code = 2)) /\
    (let e := (length phases - o - l)%nat in begin_at phases idx e <= t ->
      st_value st' = start_value phases idx (st_value st) e /\ code = (if t =? begin_at phases idx e then 4 else 0)).
Proof.
  intros HM EC HO HL HF ER o l idx t. pose proof (env_facts_create _ _ _ _ _ HM EC) as EF.
  change (clamp_so (length phases) so) with o in EF. change (clamp_sl (length phases) so sl) with l in EF.
  destruct (env_history _ _ _ _ fuel ops EF HF HO) as (st0 & outs0 & E0 & S0). assert (st0 = st) by congruence. subst st0.
  destruct EF as [W V TT FS HB]. pose proof S0 as (C & _).
  destruct (release_phase phases sq o l W V FS HB st fuel C HF) as (st1 & r1 & E1 & A1 & N1).
  destruct (release_ticks phases sq o l W V FS HB _ levels 0 st1 r1 fuel A1 HL HF) as (st2 & outs2 & E2 & A2).
  exists st2. eexists. split.
  - cbn [srun sstep]. rewrite E1. cbn [bind]. rewrite E2. cbn [bind]. reflexivity.
  - rewrite Z.add_0_l in A2. fold t in A2.
    assert (EL : forall d, snd (last ((st_value st1, r1) :: outs2) d) = last (map snd outs2) r1) by (intros d; apply last_snd).
    rewrite EL. pose proof W as (W1 & W2 & W3 & W4 & W5). destruct C as (C1 & _). rewrite C1.
    destruct (at_time_value phases sq FS HB 2 idx (linear_none_stays phases (o + l)) _ _ _ _ A2) as (T1 & T2).
    split; [exact T1|]. intros e He. apply T2; [|intros j Hj|exact He].
    + apply nth_error_None. unfold idx, release_index. unfold e. lia.
    + unfold phase_at. apply nth_error_Some. unfold idx, release_index, e in *. lia.
Qed.

(** An envelope with four phases; the first ends at 100 after 10 ticks, the sustain part is phase 1 and 2. *)
Definition env_example : list sphase := [mk_sphase 10 100; mk_sphase 4 60; mk_sphase 4 80; mk_sphase 7 0].
Example envelope_example : modest env_example /\
  match BKSequenceFuncEnvelopeCreate env_example 1 2 with
  | Ok (Some sq, _) => 
    match srun 20 sq sstate_zero (SPhase 1 :: repeat (SStep 0) 18) with
    | Ok (st, outs) => outs = [(0, 1); (10, 1); (20, 1); (30, 1); (40, 1); (50, 1); (60, 1); (70, 1); (80, 1); (90, 1); (100, 1); (90, 1); (80, 1); (70, 1); (60, 1); (65, 1); (70, 1); (75, 1); (80, 2)] /\
      match srun 20 sq st (SPhase 2 :: repeat (SStep 0) 8) with
      | Ok (_, outs) => outs = [(80, 1); (68, 1); (57, 1); (45, 1); (34, 1); (22, 1); (11, 1); (0, 4); (0, 0)]
      | Err _ => False
      end
    | Err _ => False
    end
  | _ => False
  end /\ begin_at env_example (attack_index 1 2) 3 = 18 /\ begin_at env_example (release_index 1 2) 1 = 7.
Proof.
  split; [split; [vm_compute; reflexivity|]|].
  - unfold env_example. cbn [In]. intros p [<-|[<-|[<-|[<-|[]]]]]; cbn [ph_value ph_steps]; lia.
  - vm_compute. repeat split.
Qed.

(** Phases with [2 ^ 31 + 1] steps are finished after one tick. *)
Theorem envelope_steps_refuted : exists phases sq code st outs,
  BKSequenceFuncEnvelopeCreate phases 1 0 = Ok (Some sq, code) /\ phases = [mk_sphase (2 ^ 31 + 1) 1000] /\
  srun 10 sq sstate_zero [SPhase 1; SStep 0] = Ok (st, outs) /\ outs = [(0, 1); (1000, 4)].
Proof.
  exists [mk_sphase (2 ^ 31 + 1) 1000]. eexists _, _, _, _. split; [vm_compute; reflexivity|]. split; [reflexivity|]. split; [vm_compute; reflexivity|]. reflexivity.
Qed.
(** Values of more than [2 ^ 30] overflow. *)
Theorem envelope_values_refuted : exists phases sq code,
  BKSequenceFuncEnvelopeCreate phases 2 0 = Ok (Some sq, code) /\ phases = [mk_sphase 4 1500000000; mk_sphase 4 (-1500000000)] /\
  srun 10 sq sstate_zero (SPhase 1 :: repeat (SStep 0) 4) = Err EOverflow.
Proof.
  exists [mk_sphase 4 1500000000; mk_sphase 4 (-1500000000)]. eexists _, _. split; [vm_compute; reflexivity|]. split; [reflexivity|]. vm_compute. reflexivity.
Qed.

(** ** C23: termination *)

(** Any step counts and values: histories of calls end, and neither leave the
    array nor divide by zero.  Missing: absence of signed overflow, see the next
    theorem. *)
Theorem envelope_terminates_partial phases so sl sq code fuel ops :
  Z.of_nat (length phases) < 2 ^ 28 -> (forall p, In p phases -> 0 <= ph_steps p < 2 ^ 32) ->
  BKSequenceFuncEnvelopeCreate phases so sl = Ok (Some sq, code) ->
  (forall l, In (SStep l) ops -> 0 <= l) -> (2 * length phases < fuel)%nat ->
  (exists r, srun fuel sq sstate_zero ops = Ok r) \/ srun fuel sq sstate_zero ops = Err EOverflow.
Proof.
  intros HL HB EC HO HF. destruct (envelope_create_wf phases so sl sq code HL EC) as (_ & V & W & TT & F).
  pose proof (total_run phases sq _ _ W V TT HB fuel ops HF sstate_zero) as T.
  destruct (srun fuel sq sstate_zero ops) as [r|e]; [eauto|]. right. cbn [fine] in T. destruct e; try reflexivity; exfalso; apply T; auto; right; cbn; lia.
Qed.
Theorem envelope_defined phases so sl sq code fuel ops :
  modest phases -> BKSequenceFuncEnvelopeCreate phases so sl = Ok (Some sq, code) ->
  (forall o, In o ops -> small_op phases o) -> (2 * length phases < fuel)%nat ->
  exists r, srun fuel sq sstate_zero ops = Ok r.
Proof.
  intros HM EC HO HF. destruct (env_history _ _ _ _ fuel ops (env_facts_create _ _ _ _ _ HM EC) HF HO) as (st & outs & E & _). eauto.
Qed.

(** Envelopes whose sustain part takes no time are rejected. *)
Theorem envelope_timeless_rejected phases so sl :
  Z.of_nat (length phases) < 2 ^ 28 ->
  let o := Z.to_nat (Z.min (u32 so) (Z.of_nat (length phases))) in
  let l := Z.to_nat (Z.min (u32 sl) (Z.of_nat (length phases - o))) in
  (o < length phases)%nat ->
  (forall i p, (o <= i < o + l)%nat -> nth_error phases i = Some p -> ph_steps p = 0) ->
  BKSequenceFuncEnvelopeCreate phases so sl = Ok (None, BK_INVALID_VALUE).
Proof.
  intros HL o l HO HZ. unfold BKSequenceFuncEnvelopeCreate. destruct (clamp_wf (length phases) so sl HL) as (C1 & C2 & C3). cbv zeta in C2. rewrite C2, C1.
  change (clamp_so (length phases) so) with o in *. change (clamp_sl (length phases) so sl) with l in *.
  unfold BKSequenceEnvelopeCheckValues. replace (Z.of_nat o =? Z.of_nat (length phases)) with false by lia. rewrite Nat2Z.id.
  destruct (steps_sum_zero phases l (Z.of_nat o) 0 ltac:(lia) ltac:(lia) ltac:(reflexivity)) as (r & -> & _ & R). cbn [bind].
  rewrite R; [reflexivity|]. intros q Hq p Hp. apply (HZ q p); [lia|exact Hp].
Qed.
Example envelope_timeless_example :
  BKSequenceFuncEnvelopeCreate [mk_sphase 5 10; mk_sphase 0 7; mk_sphase 0 9; mk_sphase 3 0] 1 2 = Ok (None, BK_INVALID_VALUE) /\
  (exists sq, BKSequenceFuncEnvelopeCreate [mk_sphase 5 10; mk_sphase 0 7; mk_sphase 1 9; mk_sphase 3 0] 1 2 = Ok (Some sq, 0)).
Proof. split; [vm_compute; reflexivity|]. eexists. vm_compute. reflexivity. Qed.
(** A sustain part of [2 ^ 32] steps altogether is rejected, too: the sum wraps. *)
Theorem envelope_long_sustain_refuted : exists phases,
  (forall p, In p phases -> 0 < ph_steps p < 2 ^ 32) /\ BKSequenceFuncEnvelopeCreate phases 0 2 = Ok (None, BK_INVALID_VALUE).
Proof.
  exists [mk_sphase (2 ^ 31) 10; mk_sphase (2 ^ 31) 20]. split; [|vm_compute; reflexivity].
  cbn [In]. intros p [<-|[<-|[]]]; cbn [ph_steps]; lia.
Qed.

(** ** C26: ADSR *)

Lemma adsr_frac_shift a d s r : 0 <= s <= 32767 -> BKSequencePhaseGetFracShift (adsr_phases a d s r) = Ok 15.
Proof.
  intros HS. unfold BKSequencePhaseGetFracShift, adsr_phases. cbn [BKSequencePhaseGetMaxAbsValue ph_value].
  change (chk32 (BKAbs BK_MAX_VOLUME)) with (Ok 32767). cbn [bind]. change (BKMax 0 32767) with 32767.
  assert (E : chk32 (BKAbs s) = Ok s) by (unfold BKAbs; destruct (s <? 0) eqn:ES; [lia|]; apply chk32_ok; lia). rewrite E. cbn [bind].
  assert (EM : BKMax 32767 s = 32767) by (unfold BKMax; destruct (32767 >? s) eqn:E1; lia). rewrite !EM. reflexivity.
Qed.

Lemma adsr_create a d s r : 0 <= s <= 32767 -> exists sq, BKInstrumentSetEnvelopeADSR a d s r = Ok (Some sq, 0) /\ sq_fracShift sq = 15.
Proof.
  intros HS. unfold BKInstrumentSetEnvelopeADSR, BKSequenceFuncEnvelopeCreate. cbn [length adsr_phases].
  change (BKClamp (u32 2) 0 (Z.of_nat 4)) with 2. change (BKClamp (u32 1) 0 (u32 (Z.of_nat 4 - 2))) with 1.
  change (BKSequenceEnvelopeCheckValues (adsr_phases a d s r) (Z.of_nat 4) 2 1) with (Ok 0).
  cbn [bind Z.eqb negb]. rewrite (adsr_frac_shift a d s r HS). cbn [bind]. eexists. split; reflexivity.
Qed.

Lemma adsr_index i : attack_index 2 1 i = Nat.min i 2.
Proof. unfold attack_index. change (2 + 1)%nat with 3%nat. change (Nat.max 1 1) with 1%nat. rewrite Nat.mod_1_r. destruct (Nat.ltb_spec i 3); lia. Qed.
Lemma adsr_begin a d s r n : begin_at (adsr_phases a d s r) (attack_index 2 1) (S (S n)) = a + d + 240 * Z.of_nat n.
Proof.
  induction n as [|n IH]; [cbn; lia|]. change (begin_at (adsr_phases a d s r) (attack_index 2 1) (S (S (S n)))) with
    (begin_at (adsr_phases a d s r) (attack_index 2 1) (S (S n)) + steps_at (adsr_phases a d s r) (attack_index 2 1) (S (S n))).
  rewrite IH. unfold steps_at, phase_at. rewrite adsr_index. replace (Nat.min (S (S n)) 2) with 2%nat by lia. cbn [nth_error adsr_phases ph_steps]. lia.
Qed.

(** Attack, decay and release times in ticks.  [n] ticks after the attack: the
    value rises in a line to 32767 within [a] ticks, falls in a line to [s] within
    [d] ticks and stays there.  Then the release: [m] ticks later the value is
    between the one held and 0, after [r] ticks it is 0 and the end is reported.
    Missing: times of [2 ^ 31] and more, sustain values outside of the range of
    volumes. *)
Theorem adsr_shape_partial a d s r n m fuel :
  0 <= a < 2 ^ 31 -> 0 <= d < 2 ^ 31 -> 0 <= r < 2 ^ 31 -> 0 <= s <= 32767 -> (8 < fuel)%nat ->
  exists sq st1 outs1 st2 outs2,
    BKInstrumentSetEnvelopeADSR a d s r = Ok (Some sq, 0) /\
    srun fuel sq sstate_zero (SPhase 1 :: repeat (SStep 0) n) = Ok (st1, outs1) /\
    srun fuel sq st1 (SPhase 2 :: repeat (SStep 0) m) = Ok (st2, outs2) /\
    let t := Z.of_nat n in let u := Z.of_nat m in
    (t < a -> st_value st1 = (t * (32767 * 32768 / a)) / 32768) /\
    (t = a -> 0 < d -> st_value st1 = 32767) /\
    (a <= t < a + d -> st_value st1 = (32767 * 32768 - (t - a) * ((32767 - s) * 32768 / d)) / 32768 /\ s <= st_value st1 <= 32767) /\
    (a + d <= t -> st_value st1 = s) /\ (snd (last outs1 (0, 0)) <> 4) /\
    (u < r -> 0 <= st_value st2 <= st_value st1 /\ snd (last outs2 (0, 0)) <> 4) /\ (u = 0 -> 0 < r -> st_value st2 = st_value st1) /\
    (r <= u -> st_value st2 = 0 /\ snd (last outs2 (0, 0)) = if u =? r then 4 else 0).
Proof.
  intros Ha Hd Hr Hs HF. destruct (adsr_create a d s r Hs) as (sq & EC & FC).
  set (ph := adsr_phases a d s r). set (t := Z.of_nat n). set (u := Z.of_nat m).
  assert (HM : modest ph).
  { split; [cbn; lia|]. unfold ph, adsr_phases. cbn [In]. intros p [<-|[<-|[<-|[<-|[]]]]]; cbn [ph_value ph_steps]; unfold BK_MAX_VOLUME; lia. }
  pose proof (env_facts_create ph 2 1 sq 0 HM EC) as EF. change (clamp_so (length ph) 2) with 2%nat in EF. change (clamp_sl (length ph) 2 1) with 1%nat in EF.
  destruct EF as [W V TT FS HB].
  assert (C0 : consistent sq sstate_zero).
  { split; [rewrite Z.shiftr_0_l; reflexivity|]. cbn [st_shiftedValue sstate_zero]. rewrite FC. cbn. lia. }
  assert (HL : forall k, forall l, In l (repeat 0 k) -> 0 <= l) by (intros k l Hl; apply repeat_spec in Hl; lia).
  assert (MR : forall k, repeat (SStep 0) k = map SStep (repeat 0 k)) by (intros k; induction k; cbn; congruence).
  destruct (attack_phase ph sq 2 1 W V TT FS HB sstate_zero fuel C0 ltac:(cbn; lia)) as (st0 & r0 & E0 & A0 & N0).
  destruct (attack_ticks ph sq 2 1 W V TT FS HB _ (repeat 0 n) 0 st0 r0 fuel A0 (HL n) ltac:(cbn; lia)) as (st1 & outs1 & E1 & A1).
  rewrite repeat_length, Z.add_0_l in A1. fold t in A1. cbn [st_shiftedValue sstate_zero] in A1.
  assert (C1 : consistent sq st1).
  { apply (at_time_consistent ph sq FS HB 1 (attack_index 2 1) 0 t st1 _) in A1; [exact A1|]. rewrite FC. cbn. lia. }
  destruct (release_phase ph sq 2 1 W V FS HB st1 fuel C1 ltac:(cbn; lia)) as (st1' & r1 & E1' & A1' & N1).
  destruct (release_ticks ph sq 2 1 W V FS HB _ (repeat 0 m) 0 st1' r1 fuel A1' (HL m) ltac:(cbn; lia)) as (st2 & outs2 & E2 & A2).
  rewrite repeat_length, Z.add_0_l in A2. fold u in A2.
  exists sq, st1. eexists. exists st2. eexists. split; [exact EC|].
  split. { rewrite MR. cbn [srun sstep]. rewrite E0. cbn [bind]. rewrite E1. cbn [bind]. reflexivity. }
  split. { rewrite MR. cbn [srun sstep]. rewrite E1'. cbn [bind]. rewrite E2. cbn [bind]. reflexivity. }
  cbv zeta. rewrite !last_snd.
  assert (NS := fun i => attack_none_stays ph 2 1 i ltac:(cbn; lia)).
  destruct (at_time_value ph sq FS HB 1 (attack_index 2 1) NS _ _ _ _ A1) as (V1 & _).
  pose proof (fun i p => at_time_exact ph sq FS HB 1 (attack_index 2 1) NS _ _ _ _ i p A1) as X1.
  destruct (at_time_value ph sq FS HB 2 (release_index 2 1) (linear_none_stays ph 3) _ _ _ _ A2) as (V2 & V2').
  rewrite Z.shiftr_0_l in V1. rewrite <- (proj1 C1) in V2, V2'.
  assert (B1 : begin_at ph (attack_index 2 1) 1 = a) by (cbn; lia).
  assert (B2 := adsr_begin a d s r). fold ph in B2.
  assert (PW : 2 ^ sq_fracShift sq = 32768) by (rewrite FC; reflexivity).
  assert (TA : t < a -> st_value st1 = (t * (32767 * 32768 / a)) / 32768).
  { intros Ht. rewrite (X1 O (mk_sphase a 32767) eq_refl) by (rewrite B1; cbn [begin_at]; lia).
    cbn [begin_at sh ph_value ph_steps]. rewrite PW, FC, Z.shiftr_div_pow2 by lia. change (2 ^ 15) with 32768. rewrite !Z.sub_0_r, Z.add_0_l, Z.quot_div_nonneg by lia. reflexivity. }
  assert (TS : a + d <= t -> st_value st1 = s /\ (last (map snd outs1) r0 = 1 \/ last (map snd outs1) r0 = 2)).
  { intros Ht. set (k := Z.to_nat ((t - a - d) / 240)). pose proof (Z.div_mod (t - a - d) 240 ltac:(lia)) as DM. pose proof (Z.mod_pos_bound (t - a - d) 240 ltac:(lia)) as MB.
    pose proof (Z.div_pos (t - a - d) 240 ltac:(lia) ltac:(lia)) as DP.
    destruct (V1 (S (S k))) as (BT & _ & CD); [rewrite B2, (B2 (S k)); unfold k; lia|]. split; [|exact CD].
    unfold start_value, target_value, phase_at in BT. rewrite !adsr_index in BT. replace (Nat.min (S (S k)) 2) with 2%nat in BT by lia.
    destruct k as [|k]; [|replace (Nat.min (S (S k)) 2) with 2%nat in BT by lia]; cbn [Nat.min nth_error ph adsr_phases ph_value] in BT; unfold between in BT; lia. }
  assert (TD : a <= t < a + d -> st_value st1 = (32767 * 32768 - (t - a) * ((32767 - s) * 32768 / d)) / 32768 /\ s <= st_value st1 <= 32767 /\
     (last (map snd outs1) r0 = 1 \/ last (map snd outs1) r0 = 2)).
  { intros Ht. assert (BB : begin_at ph (attack_index 2 1) 1 <= t < begin_at ph (attack_index 2 1) 2) by (rewrite B1, (B2 O); lia).
    destruct (V1 1%nat BB) as (BT & _ & CD). split; [|split; [|exact CD]].
    - rewrite (X1 1%nat (mk_sphase d s) eq_refl BB). rewrite B1. cbn [sh ph_value ph_steps]. change (phase_at ph (attack_index 2 1) 0) with (Some (mk_sphase a 32767)). cbn [ph_value]. rewrite PW, FC, Z.shiftr_div_pow2 by lia. change (2 ^ 15) with 32768.
      f_equal. replace (s * 32768 - 32767 * 32768) with (- ((32767 - s) * 32768)) by lia. rewrite Z.quot_opp_l by lia. rewrite Z.quot_div_nonneg by lia. lia.
    - unfold start_value, target_value, phase_at in BT. rewrite !adsr_index in BT. cbn [Nat.min nth_error ph adsr_phases ph_value] in BT. unfold between, BK_MAX_VOLUME in BT. lia. }
  assert (V1R : 0 <= st_value st1 <= 32767).
  { assert (D : t < a \/ a <= t < a + d \/ a + d <= t) by lia. destruct D as [D|[D|D]].
    - destruct (V1 O) as (BT & _); [rewrite B1; cbn [begin_at]; lia|]. unfold start_value, target_value, phase_at in BT. rewrite !adsr_index in BT. cbn [Nat.min nth_error ph adsr_phases ph_value] in BT. unfold between, BK_MAX_VOLUME in BT. lia.
    - destruct (TD D) as (_ & H & _). lia.
    - destruct (TS D) as (H & _). lia. }
  split; [exact TA|]. split.
  { intros Ht Hd0. destruct (TD ltac:(lia)) as (-> & _). replace (t - a) with 0 by lia. rewrite Z.mul_0_l, Z.sub_0_r. reflexivity. }
  split; [intros D; destruct (TD D) as (H1 & H2 & _); split; assumption|].
  split; [intros D; apply (TS D)|].
  split.
  { assert (D : t < a \/ a <= t < a + d \/ a + d <= t) by lia. destruct D as [D|[D|D]].
    - destruct (V1 O) as (_ & _ & CD); [rewrite B1; cbn [begin_at]; lia|]. lia.
    - destruct (TD D) as (_ & _ & H). lia.
    - destruct (TS D) as (_ & H). lia. }
  assert (R1 : begin_at ph (release_index 2 1) 1 = r) by (cbn; lia).
  split.
  { intros Hu. destruct (V2 O) as (BT & _ & CD); [rewrite R1; cbn [begin_at]; lia|].
    unfold start_value, target_value, phase_at, release_index in BT. cbn [Nat.add nth_error ph adsr_phases ph_value] in BT. unfold between in BT. split; lia. }
  split.
  { intros Hu Hr0. destruct (V2 O) as (_ & BT & _); [rewrite R1; cbn [begin_at]; lia|]. apply BT. cbn. lia. }
  { intros Hu. destruct (V2' 1%nat) as (BT & CD); [reflexivity|intros j Hj; assert (j = O) by lia; subst j; discriminate|rewrite R1; exact Hu|].
    rewrite R1 in CD. split; [exact BT|exact CD]. }
Qed.

Example adsr_example :
  match BKInstrumentSetEnvelopeADSR 4 2 16000 5 with
  | Ok (Some sq, 0) =>
    match srun 9 sq sstate_zero (SPhase 1 :: repeat (SStep 0) 300 ++ SPhase 2 :: repeat (SStep 0) 5) with
    | Ok (_, outs) => firstn 8 outs = [(0, 1); (8191, 1); (16383, 1); (24575, 1); (32767, 1); (24383, 1); (16000, 1); (16000, 1)] /\
        skipn 300 outs = [(16000, 1); (16000, 1); (12800, 1); (9600, 1); (6400, 1); (3200, 1); (0, 4)]
    | Err _ => False
    end
  | _ => False
  end.
Proof. vm_compute. split; reflexivity. Qed.

(** An attack of [2 ^ 31 + 1] ticks is over after one tick. *)
Theorem adsr_shape_refuted : exists a sq st outs, 0 <= a < 2 ^ 32 /\ BKInstrumentSetEnvelopeADSR a 100 0 100 = Ok (Some sq, 0) /\
  srun 9 sq sstate_zero [SPhase 1; SStep 0] = Ok (st, outs) /\ outs = [(0, 1); (32767, 1)] /\ 1 < a.
Proof.
  exists (2 ^ 31 + 1). eexists _, _, _. split; [lia|]. split; [vm_compute; reflexivity|]. split; [vm_compute; reflexivity|]. split; [reflexivity|lia].
Qed.

(** ** C24: copies *)

Lemma sh_set_eq h p b : sh_set h p b p = b.
Proof. unfold sh_set. rewrite Z.eqb_refl. reflexivity. Qed.
Lemma sh_set_neq h p q b : q <> p -> sh_set h p b q = h q.
Proof. intros H. unfold sh_set. replace (q =? p) with false by lia. reflexivity. Qed.

(** No copy survives its original. *)
Theorem copy_independent_refuted : forall h p q sq, p <> q ->
  let h1 := sh_create h p sq in
  exists h2 h3, BKSequenceCopy h1 q p = Ok h2 /\ BKSequenceDispose h2 p = Ok h3 /\
    h3 q <> None /\ sh_read h3 q = Err EFreed.
Proof.
  intros h p q sq N h1. unfold BKSequenceCopy, h1, sh_create. rewrite sh_set_eq. eexists _, _. split; [reflexivity|].
  unfold BKSequenceDispose. rewrite sh_set_neq, sh_set_eq by auto. split; [reflexivity|]. unfold sh_read.
  rewrite sh_set_neq, sh_set_eq by auto. split; [discriminate|]. cbn [hs_values]. rewrite sh_set_eq. reflexivity.
Qed.
(** With the original alive the copy has the same values, and disposing the copy
    leaves the original alone. Missing: the original is disposed first. *)
Theorem copy_independent_partial : forall h p q sq, p <> q ->
  let h1 := sh_create h p sq in
  sh_read h1 p = Ok sq /\
  exists h2 h3, BKSequenceCopy h1 q p = Ok h2 /\ sh_read h2 q = Ok sq /\ sh_read h2 p = Ok sq /\
    BKSequenceDispose h2 q = Ok h3 /\ sh_read h3 p = Ok sq /\ (forall x, x <> p -> x <> q -> h3 x = h x).
Proof.
  intros h p q sq N h1. unfold BKSequenceCopy, h1, sh_create. destruct sq as [v a b c d]. split.
  - unfold sh_read. rewrite sh_set_eq. cbn [hs_values]. rewrite sh_set_eq. reflexivity.
  - rewrite sh_set_eq. cbn [hs_header hs_values].
    match goal with |- exists h2 h3, Ok ?x = Ok h2 /\ _ => exists x, (sh_set x q None) end. split; [reflexivity|].
    assert (NE1 : (p =? q) = false) by lia. assert (NE2 : (q =? p) = false) by lia.
    split; [|split; [|split; [|split]]].
    5:{ intros x X1 X2. rewrite !sh_set_neq by auto. reflexivity. }
    all: unfold sh_read, BKSequenceDispose, sh_set; repeat (rewrite ?Z.eqb_refl, ?NE1, ?NE2; cbn [hs_values hs_header hs_store]); reflexivity.
Qed.
Example copy_example :
  let sq := BKSequenceFuncSimpleCreate [1; 2; 3] 1 1 in
  match BKSequenceCopy (sh_create (fun _ => None) 100 sq) 200 100 with
  | Ok h2 => sh_read h2 200 = Ok sq /\ match BKSequenceDispose h2 100 with Ok h3 => sh_read h3 200 = Err EFreed | Err _ => False end
  | Err _ => False
  end.
Proof. vm_compute. split; reflexivity. Qed.

(** A copied instrument keeps what was in memory before: the list of states
    and the unused slots contain garbage. *)
Theorem instrument_copy_refuted : exists h old orig h' copy,
  im_stateList orig = 0 /\ im_seqs orig = [100; 0; 0; 0] /\
  BKInstrumentInitCopy h [200; 201; 202; 203] old orig = Ok (h', copy) /\
  im_stateList copy = im_stateList old /\ im_stateList copy <> 0 /\ nth 1 (im_seqs copy) 0 <> 0.
Proof.
  exists (sh_create (fun _ => None) 100 (BKSequenceFuncSimpleCreate [1; 2; 3] 1 1)), (mk_imem 77 77 77 4096 [77; 77; 77; 77]), (mk_imem 1 1 1 0 [100; 0; 0; 0]).
  eexists _, _. split; [reflexivity|]. split; [reflexivity|]. split; [vm_compute; reflexivity|]. split; [reflexivity|]. split; [discriminate|]. cbn. discriminate.
Qed.

(** ** C25: the end of instruments *)

(** Sequences of an instrument made by the constructors. *)
Inductive made (fuel : nat) : option sequence -> Prop :=
| made_none : made fuel None
| made_simple vals so sl : Z.of_nat (length vals) < 2 ^ 28 -> made fuel (Some (BKSequenceFuncSimpleCreate vals so sl))
| made_envelope phases so sl sq code : modest phases -> (2 * length phases < fuel)%nat ->
    BKSequenceFuncEnvelopeCreate phases so sl = Ok (Some sq, code) -> made fuel (Some sq).

Lemma made_ok fuel q : made fuel (Some q) -> seq_ok fuel q.
Proof.
  intros H. inversion H; subst; [apply simple_seq_ok; assumption|]. match goal with M : modest _ |- _ => destruct M as (M1 & M2) end.
  eapply envelope_seq_ok; eauto.
Qed.

(** A state of an instrument after any history of calls. *)
Definition reached (fuel : nat) (sqs : list (option sequence)) (s : istate) : Prop :=
  exists s0 s1 ops, BKInstrumentStateInit = Ok s0 /\ BKInstrumentStateSetInstrument fuel [None; None; None; None] sqs s0 = Ok s1 /\
    (forall o, In o ops -> op_ok o) /\ irun fuel (BKInstrumentUpdateNumSequences sqs) s1 ops = Ok s.

Lemma reached_inv fuel sqs s : length sqs = 4%nat -> Forall (made fuel) sqs -> reached fuel sqs s -> iinv fuel sqs s.
Proof.
  intros HL HM (s0 & s1 & ops & E0 & E1 & HO & E2). destruct sqs as [|a [|b [|c [|d [|]]]]]; try discriminate.
  destruct (instrument_set fuel a b c d) as (s0' & s1' & E0' & E1' & I & _).
  { intros q Hq. apply made_ok. rewrite Forall_forall in HM. apply HM. exact Hq. }
  assert (s0' = s0) by congruence. subst s0'. assert (s1' = s1) by congruence. subst s1'.
  destruct (irun_ok fuel _ ops s1 I HO) as (s' & E & I'). congruence.
Qed.

(** Every history is defined. *)
Theorem instrument_defined fuel sqs : length sqs = 4%nat -> Forall (made fuel) sqs ->
  exists s0 s1, BKInstrumentStateInit = Ok s0 /\ BKInstrumentStateSetInstrument fuel [None; None; None; None] sqs s0 = Ok s1 /\
    is_phase s1 = 1 /\ is_muted s1 = 0 /\
    forall ops, (forall o, In o ops -> op_ok o) -> exists s, irun fuel (BKInstrumentUpdateNumSequences sqs) s1 ops = Ok s.
Proof.
  intros HL HM. destruct sqs as [|a [|b [|c [|d [|]]]]]; try discriminate.
  destruct (instrument_set fuel a b c d) as (s0 & s1 & E0 & E1 & I & P & M & _).
  { intros q Hq. apply made_ok. rewrite Forall_forall in HM. apply HM. exact Hq. }
  exists s0, s1. split; [exact E0|]. split; [exact E1|]. split; [exact P|]. split; [exact M|]. intros ops HO.
  destruct (irun_ok fuel _ ops s1 I HO) as (s & E & _). eauto.
Qed.

(** Attack ([p] = 1) or release ([p] = 2) in any state reached, then ticks.
    [start] are the sequences after the change of phase, [played] their states
    when each is played on its own.  The event is reported when the last of them
    ends, not before, and only once; until then they are played independently of
    each other. *)
Theorem instrument_end_partial fuel sqs s p levels :
  length sqs = 4%nat -> Forall (made fuel) sqs -> reached fuel sqs s ->
  p = 1 \/ (p = 2 /\ is_phase s <> 2) -> (forall l, In l levels -> 0 <= l) ->
  let start := phased fuel sqs p (is_states s) in
  0 < unfinished sqs start ->
  exists s', irun fuel (BKInstrumentUpdateNumSequences sqs) s (IPhase p :: map ITick levels) = Ok s' /\
    if unfinished sqs (played fuel sqs levels start) =? 0
    then is_muted s' = is_muted s + 1 /\ is_phase s' = 0
    else is_muted s' = is_muted s /\ is_phase s' = p /\ is_states s' = played fuel sqs levels start.
Proof.
  intros HL HM HR HP HV start HU. pose proof (reached_inv _ _ _ HL HM HR) as I.
  destruct (istep_phase fuel sqs s p I ltac:(lia)) as (s1 & E1 & I1 & _ & _ & Q1 & Q2 & _).
  assert (Q : is_phase s1 = p /\ is_states s1 = start /\ is_muted s1 = is_muted s).
  { destruct HP as [->|(-> & NP)]; [apply Q1; reflexivity|]. specialize (Q2 eq_refl NP). fold start in Q2. replace (unfinished sqs start =? 0) with false in Q2 by lia. exact Q2. }
  destruct Q as (P1 & S1 & M1). destruct (run_playing fuel sqs levels s1 I1 ltac:(lia) HV) as (s' & E' & _ & R). exists s'.
  cbn [irun istep]. rewrite E1. cbn [bind]. split; [exact E'|]. rewrite S1 in R. replace (0 <? unfinished sqs start) with true in R by lia. cbn [andb] in R.
  destruct (unfinished sqs (played fuel sqs levels start) =? 0); [split; [lia|apply R]|]. destruct R as (R1 & R2 & R3). split; [lia|]. split; [lia|exact R2].
Qed.

(** A release with no sequence left to play ends the instrument at once. *)
Theorem instrument_release_empty fuel sqs s :
  length sqs = 4%nat -> Forall (made fuel) sqs -> reached fuel sqs s -> is_phase s <> 2 ->
  unfinished sqs (phased fuel sqs 2 (is_states s)) = 0 ->
  exists s', irun fuel (BKInstrumentUpdateNumSequences sqs) s [IPhase 2] = Ok s' /\ is_phase s' = 0 /\
    is_muted s' = is_muted s + if is_phase s =? 0 then 0 else 1.
Proof.
  intros HL HM HR HP HU. pose proof (reached_inv _ _ _ HL HM HR) as I.
  destruct (istep_phase fuel sqs s 2 I ltac:(lia)) as (s1 & E1 & I1 & _ & _ & _ & Q2 & _). specialize (Q2 eq_refl HP). rewrite HU in Q2. cbn [Z.eqb] in Q2.
  exists s1. cbn [irun istep]. rewrite E1. cbn [bind]. split; [reflexivity|]. split; apply Q2.
Qed.

(** Muted instruments stay so, without another event, however often they are ticked or muted. *)
Theorem instrument_muted_silent fuel sqs s ops :
  length sqs = 4%nat -> Forall (made fuel) sqs -> reached fuel sqs s -> is_phase s = 0 ->
  (forall o, In o ops -> o = IPhase 0 \/ exists l, o = ITick l /\ 0 <= l) ->
  exists s', irun fuel (BKInstrumentUpdateNumSequences sqs) s ops = Ok s' /\ is_phase s' = 0 /\ is_muted s' = is_muted s.
Proof.
  intros HL HM HR HP. pose proof (reached_inv _ _ _ HL HM HR) as I. clear HR. revert s HP I. induction ops as [|o ops IH]; intros s HP I HO; cbn [irun]; [eauto|].
  assert (HO' : forall o, In o ops -> o = IPhase 0 \/ exists l, o = ITick l /\ 0 <= l) by (intros; apply HO; right; auto).
  destruct (HO o (or_introl eq_refl)) as [->|(l & -> & Hl)]; cbn [istep].
  - destruct (istep_phase fuel sqs s 0 I ltac:(lia)) as (s1 & E1 & I1 & _ & Q & _). destruct (Q eq_refl) as (P1 & M1). rewrite E1. cbn [bind].
    rewrite HP in M1. cbn [Z.eqb] in M1. destruct (IH s1 P1 I1 HO') as (s' & E' & P' & M'). exists s'. split; [exact E'|]. split; [exact P'|lia].
  - destruct (istep_tick fuel sqs s l I Hl) as (s1 & E1 & I1 & Q & _). destruct (Q HP) as (P1 & M1). rewrite E1. cbn [bind].
    destruct (IH s1 P1 I1 HO') as (s' & E' & P' & M'). exists s'. split; [exact E'|]. split; [exact P'|lia].
Qed.

(** A volume sequence of five values and an envelope for the pitch. *)
Definition instr_example : list (option sequence) :=
  [Some (BKSequenceFuncSimpleCreate [10; 20; 30; 40; 50] 1 2); None;
   match BKSequenceFuncEnvelopeCreate env_example 1 2 with Ok (Some sq, _) => Some sq | _ => None end; None].
Example instrument_example :
  length instr_example = 4%nat /\ Forall (made 20) instr_example /\
  match BKInstrumentStateInit with
  | Ok s0 =>
    match BKInstrumentStateSetInstrument 20 [None; None; None; None] instr_example s0 with
    | Ok s1 => reached 20 instr_example s1 /\
      match irun 20 (BKInstrumentUpdateNumSequences instr_example) s1 (repeat (ITick 1) 30 ++ IPhase 2 :: repeat (ITick 1) 6) with
      | Ok s2 => is_phase s2 = 2 /\ is_muted s2 = 0
      | Err _ => False
      end /\
      match irun 20 (BKInstrumentUpdateNumSequences instr_example) s1 (repeat (ITick 1) 30 ++ IPhase 2 :: repeat (ITick 1) 7) with
      | Ok s2 => is_phase s2 = 0 /\ is_muted s2 = 1
      | Err _ => False
      end
    | Err _ => False
    end
  | Err _ => False
  end.
Proof.
  split; [reflexivity|]. split.
  - unfold instr_example. constructor; [apply made_simple; cbn; lia|]. constructor; [constructor|]. constructor; [|constructor; [constructor|constructor]].
    destruct (BKSequenceFuncEnvelopeCreate env_example 1 2) as [(x & c)|e] eqn:E; [|exfalso; vm_compute in E; discriminate].
    destruct x as [sq|]; [|constructor]. exact (made_envelope 20 env_example 1 2 sq c (proj1 envelope_example) ltac:(cbn; lia) E).
  - destruct BKInstrumentStateInit as [s0|e] eqn:E0; [|vm_compute in E0; discriminate].
    destruct (BKInstrumentStateSetInstrument 20 [None; None; None; None] instr_example s0) as [s1|e] eqn:E1.
    + split; [exists s0, s1, []; split; [exact E0|split; [exact E1|split; [intros o []|reflexivity]]]|].
      vm_compute in E0. injection E0 as <-. vm_compute in E1. injection E1 as <-. vm_compute. repeat split.
    + vm_compute in E0. injection E0 as <-. vm_compute in E1. discriminate.
Qed.

(** A muted instrument that is released once more plays its release part again
    and reports its end a second time, without an attack. *)
Theorem instrument_end_refuted : exists sqs s1 s2 s3,
  length sqs = 4%nat /\ Forall (made 20) sqs /\ reached 20 sqs s1 /\
  irun 20 (BKInstrumentUpdateNumSequences sqs) s1 (IPhase 2 :: repeat (ITick 1) 8) = Ok s2 /\ is_phase s2 = 0 /\ is_muted s2 = 1 /\
  irun 20 (BKInstrumentUpdateNumSequences sqs) s2 (IPhase 2 :: repeat (ITick 1) 8) = Ok s3 /\ is_muted s3 = 2.
Proof.
  destruct (BKInstrumentStateSetInstrument 20 [None; None; None; None] instr_example (match BKInstrumentStateInit with Ok s => s | Err _ => mk_istate 0 0 [] 0 end)) as [s1|e] eqn:E1;
    [|vm_compute in E1; discriminate].
  exists instr_example, s1. eexists _, _. split; [reflexivity|]. split; [exact (proj1 (proj2 instrument_example))|].
  split; [eexists _, s1, []; split; [reflexivity|split; [exact E1|split; [intros o []|reflexivity]]]|].
  vm_compute in E1. injection E1 as <-. split; [vm_compute; reflexivity|]. split; [reflexivity|]. split; [reflexivity|]. split; [vm_compute; reflexivity|]. reflexivity.
Qed.

(** An instrument whose envelope takes no time never reports its end while it is attacked. *)
Theorem instrument_no_end_refuted : exists sqs s1, length sqs = 4%nat /\ Forall (made 20) sqs /\ reached 20 sqs s1 /\
  is_phase s1 = 1 /\ unfinished sqs (is_states s1) = 0 /\
  forall levels, (forall l, In l levels -> 0 <= l) -> exists s', irun 20 (BKInstrumentUpdateNumSequences sqs) s1 (map ITick levels) = Ok s' /\ is_phase s' = 1 /\ is_muted s' = 0.
Proof.
  set (sqs := [match BKSequenceFuncEnvelopeCreate [mk_sphase 0 5] 1 0 with Ok (Some sq, _) => Some sq | _ => None end; None; None; None]).
  assert (HM : Forall (made 20) sqs).
  { unfold sqs. constructor; [|repeat constructor]. destruct (BKSequenceFuncEnvelopeCreate [mk_sphase 0 5] 1 0) as [(x & c)|e] eqn:E; [|constructor].
    destruct x as [sq|]; [|constructor]. eapply made_envelope; [| |exact E]; [|cbn; lia]. split; [cbn; lia|]. intros p [<-|[]]. cbn. lia. }
  destruct (BKInstrumentStateSetInstrument 20 [None; None; None; None] sqs (match BKInstrumentStateInit with Ok s => s | Err _ => mk_istate 0 0 [] 0 end)) as [s1|e] eqn:E1;
    [|vm_compute in E1; discriminate].
  assert (HR : reached 20 sqs s1) by (eexists _, s1, []; split; [reflexivity|split; [exact E1|split; [intros o []|reflexivity]]]).
  exists sqs, s1. split; [reflexivity|]. split; [exact HM|]. split; [exact HR|].
  pose proof (reached_inv 20 sqs s1 eq_refl HM HR) as I.
  assert (C : is_phase s1 = 1 /\ unfinished sqs (is_states s1) = 0 /\ is_muted s1 = 0).
  { vm_compute in E1. injection E1 as <-. vm_compute. auto. }
  destruct C as (C1 & C2 & C3). split; [exact C1|]. split; [exact C2|]. intros levels HL.
  destruct (run_playing 20 sqs levels s1 I ltac:(lia) HL) as (s' & E' & _ & R). rewrite C2 in R. cbn [Z.ltb Z.compare andb] in R. exists s'. split; [exact E'|].
  destruct R as (R1 & _ & R3). split; congruence.
Qed.

(** A slot that does not exist is refused and nothing is changed. *)
Theorem instrument_slot_rejects fuel instr s slot v so sl : 4 <= slot ->
  BKInstrumentSetSequenceValues fuel instr s slot v so sl = Ok (instr, s, BK_INVALID_ATTRIBUTE).
Proof.
  intros H. unfold BKInstrumentSetSequenceValues. change (Z.of_nat BK_MAX_SEQUENCES) with 4.
  destruct (Z.ltb_spec slot 4); [lia|reflexivity].
Qed.
(** Setting values, when it succeeds, replaces the given slot and no other. *)
Theorem instrument_slot_set fuel instr s slot v so sl instr' s' : 0 <= slot < 4 -> length (in_sequences instr) = 4%nat ->
  BKInstrumentSetSequenceValues fuel instr s slot v so sl = Ok (instr', s', 0) ->
  length (in_sequences instr') = 4%nat /\
  (forall i, 0 <= i < 4 -> i <> slot -> aget (in_sequences instr') i = aget (in_sequences instr) i) /\
  (forall l, v = VSimple l -> l <> [] -> aget (in_sequences instr') slot = Ok (Some (BKSequenceFuncSimpleCreate l so sl))) /\
  (v = VSimple [] \/ v = VEnvelope [] -> aget (in_sequences instr') slot = Ok None).
Proof.
  intros H HL E. unfold BKInstrumentSetSequenceValues in E. change (Z.of_nat BK_MAX_SEQUENCES) with 4 in E.
  destruct (Z.ltb_spec slot 4); [|lia].
  match type of E with (let* (_, _) := ?m in _) = _ => remember m as new eqn:En end.
  destruct new as [(new & code)|]; [|discriminate]. cbn [bind] in E.
  destruct (Z.eqb_spec code 0) as [->|]; cbn [negb] in E; [|injection E as _ _ E; congruence].
  assert (S0 : aset (in_sequences instr) slot new = Ok (upd (in_sequences instr) (Z.to_nat slot) new)) by (apply aset_ok; lia).
  rewrite S0 in E. cbn [bind] in E.
  destruct (BKInstrumentStateSetDefaultValues _ s) as [s1|]; [|discriminate]. cbn [bind] in E.
  destruct (BKInstrumentStateSetPhase _ _ s1 _) as [s2|]; [|discriminate]. cbn [bind] in E.
  injection E as <- <-. unfold BKInstrumentUpdateNumSequences. cbn [in_sequences].
  assert (A : forall i, 0 <= i < 4 -> aget (upd (in_sequences instr) (Z.to_nat slot) new) i = if i =? slot then Ok new else aget (in_sequences instr) i).
  { intros i Hi. unfold aget. rewrite upd_length, nth_error_upd, HL.
    destruct (Z.eqb_spec i slot) as [->|]; [|destruct (Nat.eqb_spec (Z.to_nat slot) (Z.to_nat i)); [lia|reflexivity]].
    rewrite Nat.eqb_refl. destruct (Nat.ltb_spec (Z.to_nat slot) 4); [|lia].
    destruct (Z.leb_spec 0 slot); [|lia]. destruct (Z.ltb_spec slot (Z.of_nat 4)); [reflexivity|lia]. }
  split; [rewrite upd_length; exact HL|]. split; [intros i Hi Hn; rewrite A by lia; destruct (Z.eqb_spec i slot); [contradiction|reflexivity]|].
  split.
  - intros l -> Hl. rewrite A, Z.eqb_refl by lia. destruct l; [contradiction|]. injection En as <-. reflexivity.
  - intros Hv. rewrite A, Z.eqb_refl by lia. destruct Hv as [-> | ->]; injection En as <-; reflexivity.
Qed.
Example instrument_slot_example : exists instr s instr' s',
  BKInstrumentStateInit = Ok s /\ length (in_sequences instr) = 4%nat /\
  BKInstrumentSetSequenceValues 20 instr s 2 (VSimple [5; 6; 7]) 1 1 = Ok (instr', s', 0) /\
  BKInstrumentSetSequenceValues 20 instr s 4 (VSimple [5; 6; 7]) 1 1 = Ok (instr, s, BK_INVALID_ATTRIBUTE).
Proof.
  exists (BKInstrumentUpdateNumSequences [None; None; None; None]).
  destruct BKInstrumentStateInit as [s|e] eqn:E; [|vm_compute in E; discriminate]. vm_compute in E. injection E as <-.
  eexists _, _, _. split; [reflexivity|]. split; [reflexivity|]. split; vm_compute; reflexivity.
Qed.

Print Assumptions sequence_plays.
Print Assumptions sequence_safe.
Print Assumptions envelope_attack_partial.
Print Assumptions envelope_release_partial.
Print Assumptions envelope_steps_refuted.
Print Assumptions envelope_values_refuted.
Print Assumptions envelope_terminates_partial.
Print Assumptions envelope_defined.
Print Assumptions envelope_timeless_rejected.
Print Assumptions envelope_long_sustain_refuted.
Print Assumptions adsr_shape_partial.
Print Assumptions adsr_shape_refuted.
Print Assumptions copy_independent_refuted.
Print Assumptions copy_independent_partial.
Print Assumptions instrument_copy_refuted.
Print Assumptions instrument_defined.
Print Assumptions instrument_end_partial.
Print Assumptions instrument_release_empty.
Print Assumptions instrument_muted_silent.
Print Assumptions instrument_end_refuted.
Print Assumptions instrument_no_end_refuted.
Print Assumptions instrument_slot_rejects.
Print Assumptions instrument_slot_set.
