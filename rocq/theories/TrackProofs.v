(** Tracks: what is passed to the unit. *)
From Verif Require Import CInt CIntFacts DataModel UnitModel UnitSpec UnitProofs UnitProofs2 UnitInv UnitInv2 UnitInv3 UnitProofs5 UnitCount
  InterpModel InterpProofs IntervalProofs SlideIn ToneModel PropertiesTone SequenceModel SequenceSpec SequenceProofs InstrumentProofs InstrBounds
  TrackModel TrackSpec TrackInv.
Ltac Zify.zify_post_hook ::= idtac.

Lemma P15 : P 15 = 32768. Proof. reflexivity. Qed.
Lemma P14 : P 14 = 16384. Proof. reflexivity. Qed.
Lemma P0 : P 0 = 1. Proof. reflexivity. Qed.

(** ** Values of the members *)

Lemma get_volume st : slide_in 15 0 32767 st -> exists v, BKSlideStateGetValue st = Ok v /\ 0 <= v <= 40959.
Proof.
  intros H. destruct (in_get 15 0 32767 ltac:(lia) st H) as (v & E & L & U). exists v. split; [exact E|].
  rewrite P15 in U. lia.
Qed.
Lemma get_panning st : slide_in 15 (-32767) 32767 st -> exists v, BKSlideStateGetValue st = Ok v /\ -32767 <= v <= 40959.
Proof.
  intros H. destruct (in_get 15 (-32767) 32767 ltac:(lia) st H) as (v & E & L & U). exists v. split; [exact E|].
  rewrite P15 in U. lia.
Qed.
Lemma get_steps st : slide_in 14 0 65536 st -> exists v, BKSlideStateGetValue st = Ok v /\ 0 <= v <= 81920.
Proof.
  intros H. destruct (in_get 14 0 65536 ltac:(lia) st H) as (v & E & L & U). exists v. split; [exact E|].
  rewrite P14 in U. lia.
Qed.
Lemma get_note st : slide_in 0 0 MAX_NOTE st -> exists v, BKSlideStateGetValue st = Ok v /\ 0 <= v <= 369098752.
Proof.
  intros H. destruct (in_get 0 0 MAX_NOTE ltac:(lia) st H) as (v & E & L & U). exists v. split; [exact E|].
  rewrite P0 in U. unfold MAX_NOTE in U. lia.
Qed.
Lemma get_depth st : slide_in 0 (- MAX_VIBRATO) MAX_VIBRATO st -> exists v, BKSlideStateGetValue st = Ok v /\ -536870912 <= v <= 805306368.
Proof.
  intros H. destruct (in_get 0 (- MAX_VIBRATO) MAX_VIBRATO ltac:(lia) st H) as (v & E & L & U). exists v. split; [exact E|].
  rewrite P0 in U. unfold MAX_VIBRATO in *. lia.
Qed.

Lemma interval_get_any sh st : interval_inv sh st -> 0 <= sh <= 28 ->
  exists v, BKIntervalStateGetValue st = Ok v /\ -1073741824 <= v * P sh + P sh /\ v * P sh <= 1342177280 /\ (sh = 0 -> -1073741824 <= v) /\ (sh = 14 -> -65536 <= v).
Proof.
  intros I Hsh. pose proof (P_pos sh ltac:(lia)) as HP. rewrite (interval_get sh st I Hsh). eexists. split; [reflexivity|].
  pose proof (interval_value_bound sh st I) as B. pose proof (ii_bias _ _ I) as BB. pose proof (ii_delta _ _ I) as BD.
  set (x := iv_value st + iv_roundBias st) in *.
  assert (HX : - 1073741824 <= x <= 1342177280) by lia.
  pose proof (Z.mul_div_le x (P sh) HP). pose proof (Z.mul_succ_div_gt x (P sh) HP).
  split; [lia|]. split; [lia|]. split; intros ->.
  - change (P 0) with 1. rewrite Z.div_1_r. lia.
  - change (P 14) with 16384. apply Z.div_le_lower_bound; lia.
Qed.
Lemma get_tremolo st : interval_inv 14 st -> exists v, BKIntervalStateGetValue st = Ok v /\ -65536 <= v <= 81920.
Proof.
  intros H. destruct (interval_get_any 14 st H ltac:(lia)) as (v & E & _ & U & _ & L). exists v. split; [exact E|]. specialize (L eq_refl). rewrite P14 in U. lia.
Qed.
Lemma get_vibrato st : interval_inv 0 st -> exists v, BKIntervalStateGetValue st = Ok v /\ -1073741824 <= v <= 1342177280.
Proof.
  intros H. destruct (interval_get_any 0 st H ltac:(lia)) as (v & E & _ & U & L & _). exists v. split; [exact E|]. specialize (L eq_refl). rewrite P0 in U. lia.
Qed.

Lemma get_slot fuel t slot : track_ok fuel t -> 0 <= slot < 4 ->
  exists v, slot_value t slot = Ok v /\ Z.abs v < 134217728 /\ (slot = 0 -> Z.abs v < 32768).
Proof.
  intros H HS. destruct (tk_instr _ _ H) as (_ & sqs & F & _). unfold slot_value.
  destruct (Forall3_get _ _ _ _ F (Z.to_nat slot) ltac:(change (length slot_ranges) with 4%nat; lia)) as (r & sq & st & E1 & _ & E3 & (_ & B & _)).
  rewrite (nth_error_aget' _ slot _ ltac:(lia) E3). cbn [bind]. eexists. split; [reflexivity|].
  assert (C : slot = 0 \/ slot = 1 \/ slot = 2 \/ slot = 3) by lia.
  destruct C as [-> |[-> |[-> | ->]]]; cbn in E1; injection E1 as <-; cbn [snd] in B.
  - change (2 ^ 15) with 32768 in B. split; [lia|auto].
  - split; [exact B|discriminate].
  - split; [exact B|discriminate].
  - split; [exact B|discriminate].
Qed.

(** ** Volume *)

Lemma shr15 x : Z.shiftr x BK_VOLUME_SHIFT = x / 32768.
Proof. unfold BK_VOLUME_SHIFT. rewrite shiftr_div by lia. reflexivity. Qed.

Lemma scale_le a b : 0 <= a -> 0 <= b <= 32767 -> 0 <= (a * b) / 32768 <= a.
Proof.
  intros. split; [apply Z.div_pos; nia|]. transitivity (a * 32768 / 32768); [apply Z.div_le_mono; nia|]. rewrite Z.div_mul by lia. lia.
Qed.

Lemma levels_ok fuel t : track_ok fuel t -> exists v p, track_levels t = Ok (v, p) /\ 0 <= v <= tr_master t /\ Z.abs p <= 134258687.
Proof.
  intros H. unfold track_levels.
  destruct (get_volume _ (tk_volume _ _ H)) as (v0 & E0 & B0). rewrite E0. cbn [bind].
  set (v1 := if has t FIgnore && negb (v0 =? 0) then BK_MAX_VOLUME else v0).
  assert (B1 : 0 <= v1 <= 40959) by (unfold v1, BK_MAX_VOLUME; destruct (_ && _); lia). clearbody v1.
  destruct (get_panning _ (tk_panning _ _ H)) as (p0 & Ep & Bp). rewrite Ep. cbn [bind].
  assert (K : exists v2 p, (if has t FInstr then
       let* value := slot_value t BK_SEQUENCE_VOLUME in
       let* volume := (if negb (has t FIgnore) || (value =? 0)
                       then let* m := chk32 (v1 * value) in Ok (Z.shiftr m BK_VOLUME_SHIFT)
                       else Ok v1) in
       let* pan := slot_value t BK_SEQUENCE_PANNING in
       let* panning := chk32 (p0 + pan) in
       Ok (volume, panning)
     else Ok (v1, p0)) = Ok (v2, p) /\ -40959 <= v2 <= 40959 /\ Z.abs p <= 134258687).
  { destruct (has t FInstr); [|exists v1, p0; split; [reflexivity|lia]].
    destruct (get_slot fuel t 0 H ltac:(lia)) as (a & Ea & _ & Ba). specialize (Ba eq_refl).
    destruct (get_slot fuel t 1 H ltac:(lia)) as (b & Eb & Bb & _).
    unfold BK_SEQUENCE_VOLUME, BK_SEQUENCE_PANNING. rewrite Ea. cbn [bind].
    assert (K : exists w, (if negb (has t FIgnore) || (a =? 0) then let* m := chk32 (v1 * a) in Ok (Z.shiftr m BK_VOLUME_SHIFT) else Ok v1) = Ok w /\ -40959 <= w <= 40959).
    { destruct (_ || _); [|exists v1; split; [reflexivity|lia]].
      assert (Q : -1342103553 <= v1 * a <= 1342103553) by (clear - B1 Ba; nia).
      rewrite chk32_ok by lia. cbn [bind]. eexists. split; [reflexivity|]. rewrite shr15. split.
      - apply Z.div_le_lower_bound; lia.
      - apply Z.lt_succ_r. apply Z.div_lt_upper_bound; lia. }
    destruct K as (w & -> & Bw). cbn [bind]. rewrite Eb. cbn [bind]. rewrite chk32_ok by lia. cbn [bind]. exists w, (p0 + b). split; [reflexivity|lia]. }
  destruct K as (v2 & p & -> & B2 & BP). cbn [bind].
  assert (K : exists v3, (if has t FTremolo && negb (has t FIgnore) then
       let* tremolo := BKIntervalStateGetValue (tr_tremolo t) in
       let* a := abs32 tremolo in
       let* tremolo := chk32 (BK_MAX_VOLUME - a) in
       let* m := chk32 (v2 * tremolo) in
       Ok (Z.shiftr m BK_VOLUME_SHIFT)
     else Ok v2) = Ok v3).
  { destruct (_ && _); [|eauto]. destruct (get_tremolo _ (tk_tremolo _ _ H)) as (m & Em & Bm). rewrite Em. cbn [bind].
    rewrite abs32_val by lia. cbn [bind]. unfold BK_MAX_VOLUME. rewrite chk32_ok by lia. cbn [bind].
    assert (Q : -2013257727 <= v2 * (32767 - Z.abs m) <= 2013257727) by (clear - B2 Bm; nia).
    rewrite chk32_ok by lia. cbn [bind]. eauto. }
  destruct K as (v3 & ->). cbn [bind].
  pose proof (clamp_range v3 0 BK_MAX_VOLUME ltac:(discriminate)) as B3. set (v4 := BKClamp v3 0 BK_MAX_VOLUME) in *. clearbody v4.
  pose proof (tk_master _ _ H) as BM. unfold BK_MAX_VOLUME in *.
  assert (Q : 0 <= v4 * tr_master t <= 1073676289) by (clear - B3 BM; nia).
  rewrite chk32_ok by lia. cbn [bind]. eexists _, _. split; [reflexivity|]. split; [|exact BP]. rewrite shr15.
  rewrite Z.mul_comm. apply scale_le; lia.
Qed.

(** ** Attributes of the unit *)

Lemma unit_attr_ok fuel t attr value : track_ok fuel t -> -2147483648 <= value <= 2147483647 ->
  (attr = BK_PERIOD \/ attr = BK_SAMPLE_PERIOD -> value <> -2147483648) ->
  (attr = BK_FLAG_RELEASE -> value <> 0 -> release_ok (tr_unit t)) ->
  exists u r, BKUnitSetAttr (tr_unit t) attr value = Ok (u, r) /\ unit_attr t attr value = Ok (t_unit t u) /\
    track_ok fuel (t_unit t u).
Proof.
  intros H HV H1 H2. unfold unit_attr.
  destruct (good_attr (tr_unit t) attr value (tk_unit _ _ H)) as (u & r & E & G).
  { unfold in_s32. lia. }
  { split; [exact H1|]. intros A1 A2 A3 A4. exact (H2 A1 A2 A3 A4). }
  exists u, r. rewrite E. cbn [bind]. split; [reflexivity|]. split; [reflexivity|]. apply ok_unit; assumption.
Qed.
Lemma plain_attr_ok fuel t attr value : track_ok fuel t -> -2147483648 <= value <= 2147483647 ->
  attr <> BK_PERIOD -> attr <> BK_SAMPLE_PERIOD -> attr <> BK_FLAG_RELEASE ->
  exists u r, BKUnitSetAttr (tr_unit t) attr value = Ok (u, r) /\ unit_attr t attr value = Ok (t_unit t u) /\
    track_ok fuel (t_unit t u).
Proof. intros. apply unit_attr_ok; auto; [intros [?|?]; congruence|intros; congruence]. Qed.

Lemma volume_ok fuel t : track_ok fuel t -> exists u, BKTrackUpdateUnitVolume t = Ok (t_unit t u) /\ track_ok fuel (t_unit t u).
Proof.
  intros H. unfold BKTrackUpdateUnitVolume. destruct (levels_ok fuel t H) as (v & p & -> & Bv & Bp). cbn [bind].
  pose proof (tk_master _ _ H) as BM.
  destruct (negb (p =? 0) && has t FPan).
  - pose proof (clamp_range p (- BK_MAX_VOLUME) BK_MAX_VOLUME ltac:(discriminate)) as B. set (q := BKClamp _ _ _) in *. clearbody q. unfold BK_MAX_VOLUME in *.
    assert (K : forall (b : bool) x, (b = true -> 0 <= x <= 32767) -> exists w, (if b then let* m := chk32 (x * v) in Ok (Z.shiftr m BK_VOLUME_SHIFT) else Ok v) = Ok w /\ 0 <= w <= v).
    { intros b x Bx. destruct b; [|exists v; split; [reflexivity|lia]]. specialize (Bx eq_refl).
      assert (Q : 0 <= x * v <= 1073676289) by (clear - Bx Bv BM; nia). rewrite chk32_ok by lia. cbn [bind]. eexists. split; [reflexivity|].
      rewrite shr15, Z.mul_comm. apply scale_le; lia. }
    destruct (K (q >? 0) (32767 - q)) as (w0 & -> & B0). { intros C. apply Z.gtb_lt in C. lia. } cbn [bind].
    destruct (K (q <? 0) (32767 + q)) as (w1 & -> & B1). { intros C. apply Z.ltb_lt in C. lia. } cbn [bind].
    destruct (plain_attr_ok fuel t BK_VOLUME_0 w0 H ltac:(lia) ltac:(discriminate) ltac:(discriminate) ltac:(discriminate)) as (u0 & r0 & _ & -> & H0). cbn [bind].
    destruct (plain_attr_ok fuel _ (BK_VOLUME_0 + 1) w1 H0 ltac:(lia) ltac:(discriminate) ltac:(discriminate) ltac:(discriminate)) as (u1 & r1 & _ & -> & H1).
    exists u1. split; [reflexivity|exact H1].
  - destruct (plain_attr_ok fuel t BK_VOLUME v H ltac:(lia) ltac:(discriminate) ltac:(discriminate) ltac:(discriminate)) as (u0 & r0 & _ & -> & H0).
    exists u0. split; [reflexivity|exact H0].
Qed.

(** ** Note *)

(** No period is [INT_MIN]. *)
Fixpoint no_rate (n : nat) (k : Z) : bool :=
  match n with
  | O => true
  | S n => negb (536870912 mod k =? 0) && no_rate n (k + 1)
  end.
Lemma no_rate_spec n : forall k, no_rate n k = true -> forall j, k <= j < k + Z.of_nat n -> 536870912 mod j <> 0.
Proof.
  induction n as [|n IH]; intros k E j Hj; [lia|]. cbn [no_rate] in E. apply andb_prop in E. destruct E as (E1 & E2).
  destruct (Z.eq_dec j k) as [-> |N]; [|apply (IH (k + 1) E2); lia]. apply Z.eqb_neq. destruct (536870912 mod k =? 0); [discriminate|reflexivity].
Qed.
Lemma tone_not_min tone rate p : BKTonePeriodLookup tone rate = Ok p -> p <> 2147483648.
Proof.
  rewrite tone_lookup_eq. intros E. injection E as <-. intros E.
  set (k := tone_interp (ctone tone) / 262144) in *. 
  assert (BR : 16000 <= crate rate <= 96000) by (apply PropertiesTone.clamp_range; discriminate).
  assert (BK : 31 <= k <= 8015).
  { assert (Ht : 0 <= ctone tone <= 100663296) by (apply PropertiesTone.clamp_range; discriminate).
    assert (B := tone_interp_bounds _ Ht).
    assert (Q1 : 0 <= ctone tone / 1048576 <= 96) by (split; [apply Z.div_pos; lia|apply Z.lt_succ_r, Z.div_lt_upper_bound; lia]).
    destruct (tp_table (ctone tone / 1048576) (ctone tone / 1048576)) as (_ & P1 & _); try lia.
    destruct (tp_table (next (ctone tone / 1048576)) (next (ctone tone / 1048576))) as (_ & P2 & _); unfold next in *; try lia.
    unfold k. split; [apply Z.div_le_lower_bound; lia|apply Z.lt_succ_r, Z.div_lt_upper_bound; lia]. }
  assert (E' : k * crate rate = 536870912) by lia.
  apply (no_rate_spec 2423 5593 ltac:(vm_compute; reflexivity) k).
  - nia.
  - rewrite <- E', Z.mul_comm. apply Z.mod_mul. lia.
Qed.
