(** Proofs about envelopes. *)
From Verif Require Import CIntFacts SequenceModel SequenceSpec SequenceProofs.
Ltac Zify.zify_post_hook ::= idtac.

(** ** Arithmetic *)

Lemma quot_between d n k : 0 < n -> 0 <= k <= n -> Z.min 0 d <= k * Z.quot d n <= Z.max 0 d.
Proof.
  intros Hn Hk. destruct (Z.le_gt_cases 0 d) as [H|H].
  - pose proof (Z.quot_pos d n H Hn). pose proof (Z.mul_quot_le d n H ltac:(lia)). nia.
  - pose proof (Z.quot_pos (- d) n ltac:(lia) Hn) as P. pose proof (Z.mul_quot_le (- d) n ltac:(lia) ltac:(lia)) as Q.
    rewrite Z.quot_opp_l in P, Q by lia. nia.
Qed.
Lemma shiftr_mono a b s : 0 <= s -> a <= b -> Z.shiftr a s <= Z.shiftr b s.
Proof. intros Hs H. rewrite !Z.shiftr_div_pow2 by lia. apply Z.div_le_mono; [|exact H]. apply Z.pow_pos_nonneg; lia. Qed.
Lemma shiftr_mul a s : 0 <= s -> Z.shiftr (a * 2 ^ s) s = a.
Proof. intros Hs. rewrite Z.shiftr_div_pow2 by lia. apply Z.div_mul. apply Z.pow_nonzero; lia. Qed.

(** ** The shift *)

Definition max_abs (phases : list sphase) : Z := fold_right (fun p m => Z.max (Z.abs (ph_value p)) m) 0 phases.

Lemma max_abs_ok phases m : 0 <= m < 2 ^ 31 -> (forall p, In p phases -> Z.abs (ph_value p) < 2 ^ 31) ->
  exists m', BKSequencePhaseGetMaxAbsValue phases m = Ok m' /\ m <= m' < 2 ^ 31 /\ (forall p, In p phases -> Z.abs (ph_value p) <= m') /\
    (m' = m \/ exists p, In p phases /\ m' = Z.abs (ph_value p)).
Proof.
  revert m. induction phases as [|p l IH]; intros m Hm HB; cbn [BKSequencePhaseGetMaxAbsValue].
  - exists m. repeat split; auto; try lia. intros p [].
  - pose proof (HB p (or_introl eq_refl)). assert (EA : BKAbs (ph_value p) = Z.abs (ph_value p)) by (unfold BKAbs; destruct (_ <? 0) eqn:E; lia).
    rewrite EA, chk32_ok by lia. cbn [bind].
    assert (EM : BKMax m (Z.abs (ph_value p)) = Z.max m (Z.abs (ph_value p))) by (unfold BKMax; destruct (_ >? _) eqn:E; lia). rewrite EM.
    destruct (IH (Z.max m (Z.abs (ph_value p))) ltac:(lia) ltac:(intros; apply HB; right; auto)) as (m' & E & R1 & R2 & R3).
    exists m'. split; [exact E|]. split; [lia|]. split.
    + intros q [<-|Hq]; [lia|auto].
    + destruct R3 as [->|(q & Hq & ->)]; [|right; exists q; split; [right; exact Hq|reflexivity]].
      destruct (Z.max_spec m (Z.abs (ph_value p))) as [(_ & ->)|(_ & ->)]; [|left; reflexivity].
      right. exists p. split; [left; reflexivity|reflexivity].
Qed.

Lemma frac_shift_ok fuel m s : 0 <= s <= 30 -> (Z.to_nat (30 - s) < fuel)%nat -> 0 <= m < 2 ^ 30 ->
  let r := frac_shift_loop fuel m s in s <= r <= 30 /\ m < 2 ^ r.
Proof.
  revert s. induction fuel as [|fuel IH]; intros s Hs HF Hm r; [lia|]. unfold r. cbn [frac_shift_loop].
  rewrite Z.shiftl_1_l. destruct ((2 ^ s <=? m) && (s <? 30)) eqn:E.
  - destruct (IH (s + 1) ltac:(lia) ltac:(lia) Hm) as (H1 & H2). split; [lia|exact H2].
  - split; [lia|]. destruct (Z.eq_dec s 30) as [->|N]; [lia|]. assert (s <? 30 = true) by lia. lia.
Qed.

Lemma frac_shift_bound phases : (forall p, In p phases -> Z.abs (ph_value p) < 2 ^ 30) ->
  exists fs, BKSequencePhaseGetFracShift phases = Ok fs /\ 0 <= fs <= 30 /\ (forall p, In p phases -> Z.abs (ph_value p) * 2 ^ fs <= 2 ^ 30 - 2 ^ fs).
Proof.
  intros HB. destruct (max_abs_ok phases 0 ltac:(lia) ltac:(intros p Hp; specialize (HB p Hp); lia)) as (m & E & R1 & R2 & R3).
  assert (Hm : 0 <= m < 2 ^ 30). { destruct R3 as [->|(q & Hq & ->)]; [lia|]. specialize (HB q Hq). lia. }
  unfold BKSequencePhaseGetFracShift. rewrite E. cbn [bind]. destruct (frac_shift_ok 31 m 0 ltac:(lia) ltac:(cbn; lia) Hm) as (F1 & F2).
  set (r := frac_shift_loop 31 m 0) in *. clearbody r. exists (30 - r). split; [reflexivity|]. split; [lia|].
  intros p Hp. specialize (R2 p Hp). assert (EP : 2 ^ 30 = 2 ^ r * 2 ^ (30 - r)) by (rewrite <- Z.pow_add_r by lia; f_equal; lia).
  pose proof (Z.pow_pos_nonneg 2 (30 - r) ltac:(lia) ltac:(lia)). nia.
Qed.

(** ** The constructor *)

Lemma steps_sum_zero phases n : forall i steps, 0 <= i -> i + Z.of_nat n <= Z.of_nat (length phases) -> in_s32 steps = true ->
  exists r, steps_sum phases i n steps = Ok r /\ in_s32 r = true /\
    ((forall q, i <= Z.of_nat q < i + Z.of_nat n -> forall p, nth_error phases q = Some p -> ph_steps p = 0) -> r = steps).
Proof.
  induction n as [|n IH]; intros i steps Hi HL HS; cbn [steps_sum].
  - exists steps. auto.
  - destruct (nth_error phases (Z.to_nat i)) as [p|] eqn:EN; [|apply nth_error_None in EN; lia].
    rewrite (nth_error_aget' _ _ _ Hi EN). cbn [bind].
    destruct (IH (i + 1) (s32 (u32 (steps + ph_steps p))) ltac:(lia) ltac:(lia)) as (r & E & R1 & R2).
    { unfold in_s32. pose proof (s32_range (u32 (steps + ph_steps p))). lia. }
    exists r. split; [exact E|]. split; [exact R1|]. intros HZ. rewrite R2.
    + rewrite (HZ (Z.to_nat i) ltac:(lia) p EN), Z.add_0_r. unfold in_s32 in HS. unfold s32, u32.
      rewrite Zplus_mod_idemp_l. rewrite Z.mod_small by lia. lia.
    + intros q Hq. apply HZ. lia.
Qed.

(** Accepted envelopes have no sustain part or one that takes time. *)
Definition takes_time (phases : list sphase) (so sl : nat) : Prop :=
  so = length phases \/ exists q p, (so <= q < so + sl)%nat /\ nth_error phases q = Some p /\ ph_steps p <> 0.

Lemma check_values_ok phases so sl : (so + sl <= length phases)%nat ->
  exists code, BKSequenceEnvelopeCheckValues phases (Z.of_nat (length phases)) (Z.of_nat so) (Z.of_nat sl) = Ok code /\
    (code = 0 \/ code = BK_INVALID_VALUE) /\ (code = 0 -> takes_time phases so sl).
Proof.
  intros HL. unfold BKSequenceEnvelopeCheckValues. destruct (Z.eqb_spec (Z.of_nat so) (Z.of_nat (length phases))) as [E|E].
  - exists 0. split; [reflexivity|]. split; [auto|]. intros _. left. lia.
  - rewrite Nat2Z.id. destruct (steps_sum_zero phases sl (Z.of_nat so) 0 ltac:(lia) ltac:(lia) eq_refl) as (r & ER & _ & R2).
    rewrite ER. cbn [bind]. destruct (Z.eqb_spec r 0) as [Z0|Z0].
    + exists BK_INVALID_VALUE. split; [reflexivity|]. split; [auto|discriminate].
    + exists 0. split; [reflexivity|]. split; [auto|]. intros _. right.
      destruct (existsb (fun p => negb (ph_steps p =? 0)) (firstn sl (skipn so phases))) eqn:EX.
      * apply existsb_exists in EX. destruct EX as (p & IP & HP). apply In_nth_error in IP as (q & EQ).
        assert (q < sl)%nat. { assert (q < length (firstn sl (skipn so phases)))%nat by (apply nth_error_Some; congruence). rewrite firstn_length in *. lia. }
        exists (so + q)%nat, p. split; [lia|]. split; [|lia].
        rewrite <- (firstn_skipn so phases). rewrite nth_error_app2; rewrite firstn_length; [|lia].
        replace (so + q - Nat.min so (length phases))%nat with q by lia.
        rewrite <- (firstn_skipn sl (skipn so phases)). rewrite nth_error_app1; [exact EQ|]. apply nth_error_Some. congruence.
      * exfalso. apply Z0. apply R2. intros q Hq p EP. destruct (Z.eq_dec (ph_steps p) 0) as [|N]; [assumption|exfalso].
        enough (existsb (fun p => negb (ph_steps p =? 0)) (firstn sl (skipn so phases)) = true) by congruence.
        apply existsb_exists. exists p. split; [|lia]. apply (nth_error_In _ (q - so)).
        rewrite <- (firstn_skipn so phases) in EP. rewrite nth_error_app2 in EP by (rewrite firstn_length; lia). rewrite firstn_length in EP.
        replace (q - Nat.min so (length phases))%nat with (q - so)%nat in EP by lia.
        rewrite <- (firstn_skipn sl (skipn so phases)) in EP. rewrite nth_error_app1 in EP; [exact EP|]. rewrite firstn_length, skipn_length. lia.
Qed.

Lemma envelope_create_wf phases so sl sq code : Z.of_nat (length phases) < 2 ^ 28 -> BKSequenceFuncEnvelopeCreate phases so sl = Ok (Some sq, code) ->
  code = 0 /\ sq_values sq = VEnvelope phases /\ seq_wf sq (length phases) (clamp_so (length phases) so) (clamp_sl (length phases) so sl) /\
  takes_time phases (clamp_so (length phases) so) (clamp_sl (length phases) so sl) /\ BKSequencePhaseGetFracShift phases = Ok (sq_fracShift sq).
Proof.
  intros Hn E. unfold BKSequenceFuncEnvelopeCreate in E. destruct (clamp_wf (length phases) so sl Hn) as (C1 & C2 & C3).
  cbv zeta in C2. rewrite C2, C1 in E. destruct (check_values_ok phases _ _ C3) as (c & E1 & E2 & E3). rewrite E1 in E. cbn [bind] in E.
  destruct (Z.eqb_spec c 0) as [EC|N]; cbn [negb] in E; [|discriminate].
  destruct (BKSequencePhaseGetFracShift phases) as [fs|e] eqn:EF; cbn [bind] in E; [|discriminate].
  injection E as <- <-. cbn. split; [reflexivity|]. split; [reflexivity|]. split; [|split; [apply E3; exact EC|reflexivity]].
  unfold seq_wf. cbn. auto.
Qed.

(** ** Steps *)

Ltac stc := cbn [st_phase st_steps st_delta st_offset st_value st_shiftedValue st_endValue
  st_set_phase st_set_steps st_set_delta st_set_offset st_set_value st_set_shifted st_set_end].


Section Env.
Context (phases : list sphase) (sq : sequence) (so sl : nat).
Hypothesis W : seq_wf sq (length phases) so sl.
Hypothesis V : sq_values sq = VEnvelope phases.
Let len := length phases.
Let fs := sq_fracShift sq.
Hypothesis FS : 0 <= fs <= 30.
Lemma pow_fs : 1 <= 2 ^ fs.
Proof. pose proof (Z.pow_pos_nonneg 2 fs ltac:(lia) ltac:(lia)). lia. Qed.
Hypothesis HB : forall p, In p phases -> Z.abs (ph_value p) * 2 ^ fs <= 2 ^ 30 - 2 ^ fs /\ 0 <= ph_steps p < 2 ^ 31.

Lemma env_sustain_end : chk32 (sq_sustainOffset sq + sq_sustainLength sq) = Ok (Z.of_nat (so + sl)).
Proof. destruct W as (_ & -> & -> & H & H1). rewrite chk32_ok by lia. f_equal. lia. Qed.

(** Visited phases in phase [phv]. *)
Context (phv : Z) (idx : nat -> nat) (D : nat).
Definition norm (o : Z) : Z := if (phv =? 1) && (o >=? Z.of_nat (so + sl)) then Z.of_nat so else o.
Hypothesis I0 : forall i, phase_at phases idx i = None -> phase_at phases idx (S i) = None.
Hypothesis I1 : forall i, (idx i < len)%nat -> norm (Z.of_nat (idx i) + 1) = Z.of_nat (idx (S i)).
Hypothesis ID : forall i, exists J, (i <= J <= i + D)%nat /\ (phase_at phases idx J = None \/ steps_at phases idx J <> 0).

Definition sh (w : Z) (i : nat) : Z := match i with O => w | S i => match phase_at phases idx i with Some p => ph_value p * 2 ^ fs | None => w end end.

Definition running (w : Z) (i : nat) (k : Z) (st : sstate) : Prop :=
  exists p, phase_at phases idx i = Some p /\ 0 <= k < ph_steps p /\ Z.abs (sh w i) <= 2 ^ 30 - 2 ^ fs /\
    let e := ph_value p * 2 ^ fs in let d := Z.quot (e - sh w i) (ph_steps p) in
    st = mk_sstate phv (ph_steps p - k) d (Z.of_nat (idx i)) (Z.shiftr (sh w i + k * d) fs) (sh w i + k * d) e.

Definition finished (w : Z) (i : nat) (st : sstate) : Prop :=
  phase_at phases idx i = None /\ (forall j, (j < i)%nat -> phase_at phases idx j <> None) /\
  st_offset st = BK_INT_MAX /\ st_value st = Z.shiftr (sh w i) fs /\ st_phase st = phv /\ st_steps st = 0 /\ st_shiftedValue st = sh w i.

Lemma sh_bound w i p : phase_at phases idx i = Some p -> Z.abs (sh w (S i)) <= 2 ^ 30 - 2 ^ fs.
Proof.
  intros E. cbn [sh]. rewrite E. destruct (HB p (nth_error_In _ _ E)) as (H & _). rewrite Z.abs_mul.
  rewrite (Z.abs_eq (2 ^ fs)) by (apply Z.pow_nonneg; lia). exact H.
Qed.

(** The loop from a state without running steps. *)
Lemma env_load_ok w d : forall i st r fuel,
  Z.abs (sh w i) <= 2 ^ 30 - 2 ^ fs -> st_phase st = phv -> st_steps st = 0 -> 0 <= st_offset st <= Z.of_nat len -> norm (st_offset st) = Z.of_nat (idx i) ->
  st_shiftedValue st = sh w i -> st_value st = Z.shiftr (sh w i) fs -> (d < fuel)%nat -> (r = 1 \/ r = 2) ->
  (forall j, (j < i)%nat -> phase_at phases idx j <> None) ->
  (exists J, (i <= J <= i + d)%nat /\ (phase_at phases idx J = None \/ steps_at phases idx J <> 0)) ->
  exists j st' r', env_loop fuel phases sq (Z.of_nat (so + sl)) st r = Ok (st', r') /\ (i <= j)%nat /\
    (forall m, (i <= m < j)%nat -> steps_at phases idx m = 0) /\
    ((running w j 0 st' /\ (r' = 1 \/ r' = 2) /\ (forall m, (m < j)%nat -> phase_at phases idx m <> None)) \/ (finished w j st' /\ r' = 4)).
Proof.
  pose proof W as (W1 & W2 & W3 & W4 & W5). fold len in W1, W4, W5. pose proof pow_fs as PF.
  induction d as [|d IH]; intros i st r fuel HS HP HT HO HN HV HVal HF HR HJ (J & HJ1 & HJ2).
  all: destruct fuel as [|fuel]; [lia|]; cbn [env_loop]; rewrite HT; cbn [negb Z.eqb bind].
  all: unfold env_load; rewrite HP; unfold BK_SEQUENCE_PHASE_ATTACK.
  all: match goal with |- context [let '(_, _) := ?c in _] => 
       assert (EC : exists r1, c = (st_set_offset st (Z.of_nat (idx i)), r1) /\ (r1 = 1 \/ r1 = 2)) end.
  1,3: unfold norm in HN; destruct ((phv =? 1) && (st_offset st >=? Z.of_nat (so + sl))) eqn:EB;
     [exists 2; rewrite W2, HN; split; [reflexivity|auto] | exists r; rewrite <- HN; split; [destruct st; reflexivity|exact HR]].
  all: destruct EC as (r1 & EC & HR1); rewrite EC; clear EC; cbn [st_offset st_set_offset]; rewrite W1.
  all: destruct (phase_at phases idx i) as [p|] eqn:EP.
  2,4: (assert (len <= idx i)%nat by (apply nth_error_None in EP; exact EP);
     replace (Z.of_nat (idx i) <? Z.of_nat len) with false by lia; cbn [bind]; exists i; eexists _, _; split; [reflexivity|]; split; [lia|]; split; [intros; lia|];
     right; split; [|reflexivity]; split; [exact EP|]; split; [exact HJ|]; cbn; repeat split; auto).
  all: assert (HI : (idx i < len)%nat) by (apply nth_error_Some; unfold phase_at in EP; congruence).
  all: replace (Z.of_nat (idx i) <? Z.of_nat len) with true by lia; rewrite (nth_error_aget _ _ _ EP); cbn [bind].
  all: destruct (HB p (nth_error_In _ _ EP)) as (B1 & B2); pose proof (sh_bound w i p EP) as B3; cbn [sh] in B3; rewrite EP in B3.
  all: destruct (Z.eqb_spec (ph_steps p) 0) as [Z0|Z0]; cbn [negb].
  - exfalso. assert (J = i) by lia. subst J. destruct HJ2 as [HJ2|HJ2]; [congruence|]. unfold steps_at in HJ2. rewrite EP in HJ2. contradiction.
  - unfold shl. fold fs. rewrite chk32_ok by lia. cbn [bind st_shiftedValue st_set_offset]. rewrite HV, chk32_ok by lia. cbn [bind].
    assert (ES : s32 (ph_steps p) = ph_steps p) by (apply s32_id; lia). rewrite ES. unfold cdiv.
    replace (ph_steps p =? 0) with false by lia.
    pose proof (quot_between (ph_value p * 2 ^ fs - sh w i) (ph_steps p) 1 ltac:(lia) ltac:(lia)). rewrite chk32_ok by lia. cbn [bind negb].
    exists i. eexists _, _. split; [reflexivity|]. split; [lia|]. split; [intros; lia|]. left. split; [|auto].
    exists p. split; [exact EP|]. split; [lia|]. split; [exact HS|]. cbv zeta. rewrite Z.mul_0_l, Z.add_0_r, Z.sub_0_r. unfold st_set_value, st_set_delta, st_set_end, st_set_steps, st_set_offset. cbn. rewrite ?HV, ?HP. reflexivity.
  - unfold shl. fold fs. rewrite chk32_ok by lia. cbn [bind st_offset st_set_offset]. rewrite chk32_ok by lia. cbn [bind st_steps st_set_value st_set_offset st_set_steps st_set_shifted].
    cbn [Z.eqb].
    match goal with |- context [env_loop fuel phases sq _ ?s r1] => set (st1 := s) end.
    destruct (IH (S i) st1 r1 fuel) as (j & st' & r' & E & J1 & J2 & J3).
    + cbn [sh]. rewrite EP. exact B3.
    + exact HP.
    + reflexivity.
    + cbn. lia.
    + unfold st1. cbn. apply I1. exact HI.
    + cbn. rewrite EP. reflexivity.
    + cbn. rewrite EP. reflexivity.
    + lia.
    + exact HR1.
    + intros m Hm. destruct (Nat.eq_dec m i) as [->|]; [congruence|apply HJ; lia].
    + exists J. split; [|exact HJ2]. destruct (Nat.eq_dec J i) as [->|]; [|lia]. destruct HJ2 as [HJ2|HJ2]; [congruence|].
      unfold steps_at in HJ2. rewrite EP in HJ2. contradiction.
    + exists j, st', r'. split; [exact E|]. split; [lia|]. split; [|exact J3].
      intros m Hm. destruct (Nat.eq_dec m i) as [->|]; [unfold steps_at; rewrite EP; exact Z0|apply J2; lia].
  - unfold shl. fold fs. rewrite chk32_ok by lia. cbn [bind st_shiftedValue st_set_offset]. rewrite HV, chk32_ok by lia. cbn [bind].
    assert (ES : s32 (ph_steps p) = ph_steps p) by (apply s32_id; lia). rewrite ES. unfold cdiv.
    replace (ph_steps p =? 0) with false by lia.
    pose proof (quot_between (ph_value p * 2 ^ fs - sh w i) (ph_steps p) 1 ltac:(lia) ltac:(lia)). rewrite chk32_ok by lia. cbn [bind negb].
    exists i. eexists _, _. split; [reflexivity|]. split; [lia|]. split; [intros; lia|]. left. split; [|auto].
    exists p. split; [exact EP|]. split; [lia|]. split; [exact HS|]. cbv zeta. rewrite Z.mul_0_l, Z.add_0_r, Z.sub_0_r. unfold st_set_value, st_set_delta, st_set_end, st_set_steps, st_set_offset. cbn. rewrite ?HV, ?HP. reflexivity.
Qed.

Lemma begin_zero i j : (i <= j)%nat -> (forall m, (i <= m < j)%nat -> steps_at phases idx m = 0) -> begin_at phases idx j = begin_at phases idx i.
Proof.
  intros H HZ. induction H as [|j H IH]; [reflexivity|]. cbn [begin_at]. rewrite IH by (intros; apply HZ; lia). rewrite HZ by lia. lia.
Qed.
Lemma steps_at_nonneg i : 0 <= steps_at phases idx i.
Proof. unfold steps_at. destruct (phase_at phases idx i) as [p|] eqn:E; [|lia]. destruct (HB p (nth_error_In _ _ E)). lia. Qed.
Lemma begin_mono i j : (i <= j)%nat -> begin_at phases idx i <= begin_at phases idx j.
Proof. intros H. induction H as [|j H IH]; [lia|]. cbn [begin_at]. pose proof (steps_at_nonneg j). lia. Qed.

(** State [t] ticks after the phase was set; [r] is the code of the last call. *)
Definition at_time (w t : Z) (st : sstate) (r : Z) : Prop :=
  (exists i k, t = begin_at phases idx i + k /\ running w i k st /\ (r = 1 \/ r = 2) /\ (forall m, (m <= i)%nat -> phase_at phases idx m <> None)) \/
  (exists i, begin_at phases idx i <= t /\ finished w i st /\ (r = if t =? begin_at phases idx i then 4 else 0)).

Lemma env_tick w t st r fuel level : at_time w t st r -> 0 <= level -> (D < fuel)%nat ->
  exists st' r', BKSequenceStateStep fuel (Some sq) st level = Ok (st', r') /\ at_time w (t + 1) st' r'.
Proof.
  pose proof W as (W1 & W2 & W3 & W4 & W5). fold len in W1, W4, W5.
  intros AT HL HF. pose proof pow_fs as PF. unfold BKSequenceStateStep. rewrite V. unfold BKSequenceFuncEnvelopeStep, BK_SEQUENCE_STEP_MAX. replace (level <? 0) with false by lia.
  destruct AT as [(i & k & -> & (p & EP & HK & HS & EQ) & _ & HA)|(i & HT & (F1 & F2 & F3 & F4 & F5 & F6) & HR)].
  - cbv zeta in EQ. set (d := Z.quot (ph_value p * 2 ^ fs - sh w i) (ph_steps p)) in *. subst st. cbn [st_offset].
    assert (HI : (idx i < len)%nat) by (apply nth_error_Some; unfold phase_at in EP; congruence).
    unfold BK_INT_MAX. replace (Z.of_nat (idx i) =? 2147483647) with false by lia. rewrite env_sustain_end. cbn [bind].
    destruct fuel as [|fuel]; [lia|]. destruct (HB p (nth_error_In _ _ EP)) as (B1 & B2). pose proof (sh_bound w i p EP) as B3. cbn [sh] in B3. rewrite EP in B3.
    cbn [env_loop st_steps]. replace (ph_steps p - k =? 0) with false by lia. cbn [negb].
    rewrite chk32_ok by lia. cbn [bind st_set_steps st_steps st_delta st_offset st_value st_shiftedValue st_endValue st_phase].
    destruct (ph_steps p - k - 1 >? 0) eqn:EK.
    + assert (QB := quot_between (ph_value p * 2 ^ fs - sh w i) (ph_steps p) (k + 1) ltac:(lia) ltac:(lia)). fold d in QB.
      rewrite chk32_ok by lia. cbn [bind]. eexists _, _. split; [reflexivity|]. left. exists i, (k + 1). split; [lia|]. split; [|auto].
      exists p. split; [exact EP|]. split; [lia|]. split; [exact HS|]. cbv zeta. fold d. cbn. fold fs.
      unfold st_set_value, st_set_shifted, st_set_steps. cbn.
      replace (sh w i + k * d + d) with (sh w i + (k + 1) * d) by lia. fold fs. replace (ph_steps p - k - 1) with (ph_steps p - (k + 1)) by lia. reflexivity.
    + assert (Z1 : ph_steps p - k - 1 = 0) by lia. rewrite Z1. stc.
      rewrite chk32_ok by lia. cbn [bind].
      (* the rest of this iteration is the loop from a state without steps *)
      match goal with |- context [env_load phases sq _ ?s _] => set (st1 := s) end.
      match goal with |- exists st' r', ?x = _ /\ _ => assert (EL : x = env_loop (S fuel) phases sq (Z.of_nat (so + sl)) st1 BK_SEQUENCE_RETURN_STEP) by reflexivity end.
      rewrite EL. clear EL.
      destruct (env_load_ok w D (S i) st1 BK_SEQUENCE_RETURN_STEP (S fuel)) as (j & st' & r' & E & J1 & J2 & J3).
      * cbn [sh]. rewrite EP. exact B3.
      * reflexivity.
      * reflexivity.
      * cbn. lia.
      * unfold st1. cbn. apply I1. exact HI.
      * cbn. rewrite EP. reflexivity.
      * cbn. rewrite EP. reflexivity.
      * lia.
      * auto.
      * intros m Hm. apply HA. lia.
      * apply ID.
      * exists st', r'. split; [exact E|]. assert (EB : begin_at phases idx j = begin_at phases idx i + k + 1).
        { rewrite (begin_zero (S i) j J1 J2). cbn [begin_at]. unfold steps_at. rewrite EP. lia. }
        destruct J3 as [(R & R' & RA)|(R & R')].
        -- left. exists j, 0. split; [lia|]. split; [exact R|]. split; [exact R'|]. intros m Hm.
           destruct (Nat.eq_dec m j) as [->|]; [destruct R as (p' & EP' & _); congruence|apply RA; lia].
        -- right. exists j. split; [lia|]. split; [exact R|]. rewrite EB, Z.eqb_refl. exact R'.
  - rewrite F3, Z.eqb_refl. eexists _, _. split; [reflexivity|]. right. exists i. split; [lia|]. split; [unfold finished; tauto|].
    replace (t + 1 =? begin_at phases idx i) with false by lia. reflexivity.
Qed.

(** Consistent states. *)
Definition consistent (st : sstate) : Prop := st_value st = Z.shiftr (st_shiftedValue st) fs /\ Z.abs (st_shiftedValue st) <= 2 ^ 30 - 2 ^ fs.

Lemma env_begin st fuel o : consistent st -> (D < fuel)%nat -> 0 <= o <= Z.of_nat len -> norm o = Z.of_nat (idx 0) ->
  exists st' r', BKSequenceFuncEnvelopeStep fuel phases sq (st_set_phase (st_set_offset (st_set_steps st 0) o) phv) 0 = Ok (st', r') /\
    at_time (st_shiftedValue st) 0 st' r' /\ (r' <> 0).
Proof.
  pose proof W as (W1 & W2 & W3 & W4 & W5). fold len in W1, W4, W5.
  intros (C1 & C2) HF HO HN. unfold BKSequenceFuncEnvelopeStep. change (0 <? BK_SEQUENCE_STEP_MAX) with false. cbn [st_offset st_set_phase st_set_offset].
  unfold BK_INT_MAX. replace (o =? 2147483647) with false by lia. rewrite env_sustain_end. cbn [bind].
  match goal with |- context [env_loop fuel phases sq _ ?s _] => set (st1 := s) end.
  destruct (env_load_ok (st_shiftedValue st) D 0 st1 BK_SEQUENCE_RETURN_STEP fuel) as (j & st' & r' & E & J1 & J2 & J3).
  - exact C2.
  - reflexivity.
  - reflexivity.
  - cbn. lia.
  - exact HN.
  - reflexivity.
  - exact C1.
  - lia.
  - left. reflexivity.
  - intros; lia.
  - apply ID.
  - assert (EB : begin_at phases idx j = 0) by (rewrite (begin_zero 0 j J1 J2); reflexivity).
    exists st', r'. split; [exact E|]. destruct J3 as [(R & R' & RA)|(R & R')].
    + split; [|lia]. left. exists j, 0. split; [lia|]. split; [exact R|]. split; [exact R'|]. intros m Hm.
      destruct (Nat.eq_dec m j) as [->|]; [destruct R as (p' & EP' & _); congruence|apply RA; lia].
    + split; [|lia]. right. exists j. split; [lia|]. split; [exact R|]. rewrite EB. exact R'.
Qed.

Lemma env_run w levels : forall t st r fuel, at_time w t st r -> (forall l, In l levels -> 0 <= l) -> (D < fuel)%nat ->
  exists st' outs, srun fuel sq st (map SStep levels) = Ok (st', outs) /\
    at_time w (t + Z.of_nat (length levels)) st' (last (map snd outs) r).
Proof.
  induction levels as [|l levels IH]; intros t st r fuel AT HL HF; cbn [map srun length].
  - exists st, []. rewrite Z.add_0_r. auto.
  - unfold sstep at 1. destruct (env_tick w t st r fuel l AT (HL l (or_introl eq_refl)) HF) as (st1 & r1 & E1 & A1). rewrite E1. cbn [bind].
    destruct (IH (t + 1) st1 r1 fuel A1 ltac:(intros; apply HL; right; auto) HF) as (st2 & outs & E2 & A2). rewrite E2. cbn [bind].
    exists st2, ((st_value st1, r1) :: outs). split; [reflexivity|].
    replace (t + Z.of_nat (S (length levels))) with (t + 1 + Z.of_nat (length levels)) by lia.
    replace (last (map snd ((st_value st1, r1) :: outs)) r) with (last (map snd outs) r1); [exact A2|].
    cbn [map snd]. clear. generalize (map snd outs). intros l. revert r r1. induction l as [|x l IH]; intros; [reflexivity|]. cbn [last] in *. destruct l; [reflexivity|apply IH].
Qed.

(** What can be seen at time [t]. *)
Lemma sh_value w i : (forall m, (m < i)%nat -> phase_at phases idx m <> None) -> Z.shiftr (sh w i) fs = start_value phases idx (Z.shiftr w fs) i.
Proof.
  intros H. destruct i as [|i]; cbn [sh start_value]; [reflexivity|].
  destruct (phase_at phases idx i) as [p|] eqn:E; [apply shiftr_mul; lia|reflexivity].
Qed.

Lemma at_time_value w t st r : at_time w t st r ->
  (forall i, begin_at phases idx i <= t < begin_at phases idx (S i) ->
    between (start_value phases idx (Z.shiftr w fs) i) (st_value st) (target_value phases idx i) /\
    (t = begin_at phases idx i -> st_value st = start_value phases idx (Z.shiftr w fs) i) /\ (r = 1 \/ r = 2)) /\
  (forall i, phase_at phases idx i = None -> (forall j, (j < i)%nat -> phase_at phases idx j <> None) -> begin_at phases idx i <= t ->
    st_value st = start_value phases idx (Z.shiftr w fs) i /\ r = (if t =? begin_at phases idx i then 4 else 0)).
Proof.
  intros AT. destruct AT as [(i & k & -> & (p & EP & HK & HS & EQ) & HR & HA)|(i & HT & (F1 & F2 & F3 & F4 & F5 & F6) & HR)].
  - assert (EB : begin_at phases idx (S i) = begin_at phases idx i + ph_steps p) by (cbn [begin_at]; unfold steps_at; rewrite EP; reflexivity).
    split.
    + intros i' Hi'. assert (i' = i).
      { destruct (Nat.lt_trichotomy i' i) as [L|[L|L]]; [|exact L|].
        - pose proof (begin_mono (S i') i L). lia.
        - pose proof (begin_mono (S i) i' L). lia. }
      subst i'. cbv zeta in EQ. set (d := Z.quot (ph_value p * 2 ^ fs - sh w i) (ph_steps p)) in *. subst st. cbn [st_value].
      rewrite <- sh_value by (intros; apply HA; lia). split; [|split; [|exact HR]].
      * unfold target_value. rewrite EP. unfold between. rewrite <- (shiftr_mul (ph_value p) fs ltac:(lia)).
        pose proof (quot_between (ph_value p * 2 ^ fs - sh w i) (ph_steps p) k ltac:(lia) ltac:(lia)) as QB. fold d in QB.
        destruct (Z.le_gt_cases (sh w i) (ph_value p * 2 ^ fs)) as [L|L].
        -- pose proof (shiftr_mono _ _ fs ltac:(lia) (ltac:(lia) : sh w i <= sh w i + k * d)).
           pose proof (shiftr_mono _ _ fs ltac:(lia) (ltac:(lia) : sh w i + k * d <= ph_value p * 2 ^ fs)). lia.
        -- pose proof (shiftr_mono _ _ fs ltac:(lia) (ltac:(lia) : sh w i + k * d <= sh w i)).
           pose proof (shiftr_mono _ _ fs ltac:(lia) (ltac:(lia) : ph_value p * 2 ^ fs <= sh w i + k * d)). lia.
      * intros ET. assert (k = 0) by lia. subst k. rewrite Z.mul_0_l, Z.add_0_r. reflexivity.
    + intros i' HN HA' HB'. exfalso. destruct (Nat.le_gt_cases i' i) as [L|L]; [apply (HA i' L HN)|].
      pose proof (begin_mono (S i) i' L). lia.
  - split.
    + intros i' Hi'. exfalso. destruct (Nat.le_gt_cases i i') as [L|L].
      * assert (EN : phase_at phases idx i' = None) by (clear -L F1 I0; induction L; auto).
        cbn [begin_at] in Hi'. unfold steps_at in Hi'. rewrite EN in Hi'. lia.
      * pose proof (begin_mono (S i') i L). lia.
    + intros i' HN HA' HB'. assert (i' = i).
      { destruct (Nat.lt_trichotomy i' i) as [L|[L|L]]; [|exact L|].
        - destruct (F2 i' L HN).
        - destruct (HA' i L F1). }
      subst i'. rewrite <- sh_value by exact F2. split; [exact F4|exact HR].
Qed.

(** Between the ends of a phase the value follows a line. *)
Lemma at_time_exact w t st r i p : at_time w t st r -> phase_at phases idx i = Some p -> begin_at phases idx i <= t < begin_at phases idx (S i) ->
  st_value st = Z.shiftr (sh w i + (t - begin_at phases idx i) * Z.quot (ph_value p * 2 ^ fs - sh w i) (ph_steps p)) fs.
Proof.
  intros AT EP0 Hi'. destruct AT as [(i' & k & -> & (q & EP & HK & HS & EQ) & HR & HA)|(i' & HT & (F1 & F2 & F3 & F4 & F5 & F6) & HR)].
  - assert (EB : begin_at phases idx (S i') = begin_at phases idx i' + ph_steps q) by (cbn [begin_at]; unfold steps_at; rewrite EP; reflexivity).
    assert (i = i').
    { destruct (Nat.lt_trichotomy i i') as [L|[L|L]]; [|exact L|].
      - pose proof (begin_mono (S i) i' L). lia.
      - pose proof (begin_mono (S i') i L). lia. }
    subst i'. assert (p = q) by congruence. subst q. cbv zeta in EQ. subst st. cbn [st_value].
    replace (begin_at phases idx i + k - begin_at phases idx i) with k by lia. reflexivity.
  - exfalso. destruct (Nat.le_gt_cases i' i) as [L|L].
    + assert (EN : phase_at phases idx i = None) by (clear -L F1 I0; induction L; auto). congruence.
    + pose proof (begin_mono (S i) i' L). lia.
Qed.
End Env.
