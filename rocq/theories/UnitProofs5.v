(** Attributes, ranges and channels of units. *)
From Verif Require Import CInt CIntFacts DataModel UnitModel UnitSpec UnitProofs UnitProofs2 UnitProofs3 UnitInv UnitInv2 UnitInv3 UnitNoise UnitProofs4.
Ltac Zify.zify_post_hook ::= idtac.

(** ** Attributes *)

Ltac attr_consts := unfold BK_WAVEFORM, BK_DUTY_CYCLE, BK_PERIOD, BK_PHASE, BK_PHASE_WRAP, BK_NUM_PHASES, BK_VOLUME,
  BK_VOLUME_0, BK_VOLUME_7, BK_MUTE, BK_SAMPLE_REPEAT, BK_SAMPLE_PERIOD, BK_SAMPLE_IMMED_RELEASE, BK_FLAG_RELEASE in *.

(** The getter looks at the members the attribute is about. *)
Definition same_attr (u v : bkunit) (attr : Z) : Prop :=
  (attr = BK_WAVEFORM -> un_waveform u = un_waveform v) /\
  (attr = BK_DUTY_CYCLE -> un_duty u = un_duty v) /\
  (attr = BK_PERIOD -> un_period u = un_period v) /\
  (attr = BK_PHASE -> ph_phase (un_phase u) = ph_phase (un_phase v)) /\
  (attr = BK_PHASE_WRAP -> ph_wrap (un_phase u) = ph_wrap (un_phase v)) /\
  (attr = BK_NUM_PHASES -> phases u = phases v) /\
  (BK_VOLUME_0 <= attr <= BK_VOLUME_7 -> aget (un_volume u) (attr - BK_VOLUME_0) = aget (un_volume v) (attr - BK_VOLUME_0)) /\
  (attr = BK_MUTE -> un_mute u = un_mute v) /\
  (attr = BK_SAMPLE_REPEAT -> sm_repeatMode (un_sample u) = sm_repeatMode (un_sample v)) /\
  (attr = BK_SAMPLE_PERIOD -> sm_period (un_sample u) = sm_period (un_sample v)) /\
  (attr = BK_SAMPLE_IMMED_RELEASE -> un_jump u = un_jump v) /\
  (attr = BK_FLAG_RELEASE -> un_release u = un_release v).

Lemma get_attr_same u v attr : same_attr u v attr -> BKUnitGetAttr u attr = BKUnitGetAttr v attr.
Proof.
  intros (H1 & H2 & H3 & H4 & H5 & H6 & H7 & H8 & H9 & H10 & H11 & H12). unfold BKUnitGetAttr. cbv zeta.
  destruct (Z.eqb_spec attr BK_WAVEFORM) as [E|_]; [rewrite (H1 E); reflexivity|].
  destruct (Z.eqb_spec attr BK_DUTY_CYCLE) as [E|_]; [rewrite (H2 E); reflexivity|].
  destruct (Z.eqb_spec attr BK_PERIOD) as [E|_]; [rewrite (H3 E); reflexivity|].
  destruct (Z.eqb_spec attr BK_PHASE) as [E|_]; [rewrite (H4 E); reflexivity|].
  destruct (Z.eqb_spec attr BK_PHASE_WRAP) as [E|_]; [rewrite (H5 E); reflexivity|].
  destruct (Z.eqb_spec attr BK_NUM_PHASES) as [E|_].
  { specialize (H6 E). unfold phases in H6.
    destruct (un_waveform u =? BK_SAMPLE), (un_waveform v =? BK_SAMPLE); cbn [negb]; rewrite H6; reflexivity. }
  destruct ((BK_VOLUME_0 <=? attr) && (attr <=? BK_VOLUME_7)) eqn:E; [rewrite H7 by lia; reflexivity|].
  destruct (Z.eqb_spec attr BK_MUTE) as [E1|_]; [rewrite (H8 E1); reflexivity|].
  destruct (Z.eqb_spec attr BK_SAMPLE_REPEAT) as [E1|_]; [rewrite (H9 E1); reflexivity|].
  destruct (Z.eqb_spec attr BK_SAMPLE_PERIOD) as [E1|_]; [rewrite (H10 E1); reflexivity|].
  destruct (Z.eqb_spec attr BK_SAMPLE_IMMED_RELEASE) as [E1|_]; [rewrite (H11 E1); reflexivity|].
  destruct (Z.eqb_spec attr BK_FLAG_RELEASE) as [E1|_]; [rewrite (H12 E1); reflexivity|].
  reflexivity.
Qed.

Lemma clamp_minmax v l h : l <= h -> BKClamp v l h = Z.max l (Z.min h v).
Proof. intros H. unfold BKClamp. destruct (Z.ltb_spec v l); [lia|]. destruct (Z.gtb_spec v h); lia. Qed.

Lemma abs32_val v : -2147483647 <= v <= 2147483647 -> abs32 v = Ok (Z.abs v).
Proof.
  intros H. unfold abs32. destruct (Z.ltb_spec v 0).
  - rewrite chk32_ok by lia. f_equal. lia.
  - f_equal. lia.
Qed.

Lemma in_s32_range v : in_s32 v = true -> -2147483648 <= v <= 2147483647.
Proof. unfold in_s32. lia. Qed.

Ltac untouched := intros other No; apply get_attr_same; unfold same_attr, phases; repeat split; intros;
  try reflexivity; exfalso; apply No; unfold attr_touches; attr_consts; intuition lia.

Theorem attr_readback u attr value v : unit_wf u -> in_s32 value = true -> attr_value u attr value v ->
  exists u', BKUnitSetAttr u attr value = Ok (u', 0) /\ BKUnitGetAttr u' attr = Ok (0, Some v) /\
    forall other, ~ attr_touches attr other -> BKUnitGetAttr u' other = BKUnitGetAttr u other.
Proof.
  intros W Hs V. apply in_s32_range in Hs. wf_destruct W.
  destruct V as [value|value Hw|value Hw Hp|value Hw Hp Hv|value Hw Hp Hv|value|value Hn|k value Hk|value|value|value Hn|value|value].
  - (* duty cycle *)
    assert (E : BKClamp value BK_MIN_DUTY_CYCLE BK_MAX_DUTY_CYCLE = Z.max 1 (Z.min 15 value)) by (apply clamp_minmax; cbv; discriminate).
    change (BKUnitSetAttr u BK_DUTY_CYCLE value) with
      (if negb (un_duty u =? BKClamp value BK_MIN_DUTY_CYCLE BK_MAX_DUTY_CYCLE) then
         Ok (set_duty (if (un_waveform u =? BK_SQUARE) && (BKClamp value BK_MIN_DUTY_CYCLE BK_MAX_DUTY_CYCLE >? un_duty u) &&
                          (ph_phase (un_phase u) <? BKClamp value BK_MIN_DUTY_CYCLE BK_MAX_DUTY_CYCLE)
                       then set_phase u 0 else u) (BKClamp value BK_MIN_DUTY_CYCLE BK_MAX_DUTY_CYCLE), 0)
       else Ok (u, 0)).
    rewrite E. set (c := Z.max 1 (Z.min 15 value)) in *. assert (Hc : 1 <= c <= 15) by lia. clearbody c.
    destruct (Z.eqb_spec (un_duty u) c) as [Ed|Ed]; cbn [negb].
    + exists u. split; [reflexivity|]. split; [|reflexivity].
      change (BKUnitGetAttr u BK_DUTY_CYCLE) with (@Ok (Z * option Z) (0, Some (s32 (un_duty u)))).
      rewrite Ed, s32_id by lia. reflexivity.
    + eexists. split; [reflexivity|]. split.
      * match goal with |- BKUnitGetAttr (set_duty ?x ?y) _ = _ =>
          change (BKUnitGetAttr (set_duty x y) BK_DUTY_CYCLE) with (@Ok (Z * option Z) (0, Some (s32 y))) end.
        rewrite s32_id by lia. reflexivity.
      * destruct (_ && _ && _); untouched.
  - (* waveform *)
    change (BKUnitSetAttr u BK_WAVEFORM value) with
      (match waveform_phases value with
       | None => Ok (u, BK_INVALID_VALUE)
       | Some count =>
         Ok (unit_data_state (if negb (un_waveform (set_ph u (p_count (un_phase u) count)) =? value)
                              then set_waveform (set_phase (set_ph u (p_count (un_phase u) count)) 0) value
                              else set_ph u (p_count (un_phase u) count)) None, 0)
       end).
    assert (Hc : exists count, waveform_phases value = Some count).
    { destruct Hw as [->|[->|[->|[->|[->| ->]]]]]; eexists; reflexivity. }
    destruct Hc as [count ->]. eexists. split; [reflexivity|]. split.
    + assert (Hv : s32 value = value) by (destruct Hw as [->|[->|[->|[->|[->| ->]]]]]; reflexivity).
      match goal with |- BKUnitGetAttr ?x _ = _ => change (BKUnitGetAttr x BK_WAVEFORM) with (@Ok (Z * option Z) (0, Some (s32 (un_waveform x)))) end.
      ucbn. destruct (Z.eqb_spec (un_waveform u) value) as [E|E]; cbn [negb]; ucbn; rewrite ?E, Hv; reflexivity.
    + destruct (negb _); untouched.
  - (* phase *)
    change (BKUnitSetAttr u BK_PHASE value) with
      (if negb (un_waveform u =? BK_SAMPLE) then Ok (set_phase u (BKClamp value 0 (u32 (ph_count (un_phase u) - 1))), 0)
       else Ok (set_phase u (BKClamp (if value <? 0 then if sm_end (un_sample u) >? sm_offset (un_sample u) then 0
                              else s32 (u32 (sm_length (un_sample u) - 1)) else value) 0 (u32 (sm_length (un_sample u) - 1))), 0)).
    unfold phases in *. destruct (Z.eqb_spec (un_waveform u) BK_SAMPLE) as [E|_]; [contradiction|]. cbn [negb].
    eexists. split; [reflexivity|]. split; [|untouched].
    match goal with |- BKUnitGetAttr (set_phase ?x ?y) _ = _ =>
      change (BKUnitGetAttr (set_phase x y) BK_PHASE) with (@Ok (Z * option Z) (0, Some (s32 y))) end.
    rewrite u32_id by lia. rewrite clamp_minmax by lia. rewrite s32_id by lia. reflexivity.
  - change (BKUnitSetAttr u BK_PHASE value) with
      (if negb (un_waveform u =? BK_SAMPLE) then Ok (set_phase u (BKClamp value 0 (u32 (ph_count (un_phase u) - 1))), 0)
       else Ok (set_phase u (BKClamp (if value <? 0 then if sm_end (un_sample u) >? sm_offset (un_sample u) then 0
                              else s32 (u32 (sm_length (un_sample u) - 1)) else value) 0 (u32 (sm_length (un_sample u) - 1))), 0)).
    unfold phases in *. destruct (Z.eqb_spec (un_waveform u) BK_SAMPLE) as [_|E]; [|contradiction]. cbn [negb].
    destruct (Z.ltb_spec value 0); [lia|].
    eexists. split; [reflexivity|]. split; [|untouched].
    match goal with |- BKUnitGetAttr (set_phase ?x ?y) _ = _ =>
      change (BKUnitGetAttr (set_phase x y) BK_PHASE) with (@Ok (Z * option Z) (0, Some (s32 y))) end.
    rewrite u32_id by lia. rewrite clamp_minmax by lia. rewrite s32_id by lia. do 3 f_equal. lia.
  - change (BKUnitSetAttr u BK_PHASE value) with
      (if negb (un_waveform u =? BK_SAMPLE) then Ok (set_phase u (BKClamp value 0 (u32 (ph_count (un_phase u) - 1))), 0)
       else Ok (set_phase u (BKClamp (if value <? 0 then if sm_end (un_sample u) >? sm_offset (un_sample u) then 0
                              else s32 (u32 (sm_length (un_sample u) - 1)) else value) 0 (u32 (sm_length (un_sample u) - 1))), 0)).
    unfold phases in *. destruct (Z.eqb_spec (un_waveform u) BK_SAMPLE) as [_|E]; [|contradiction]. cbn [negb].
    destruct (Z.ltb_spec value 0); [|lia].
    eexists. split; [reflexivity|]. split; [|untouched].
    match goal with |- BKUnitGetAttr (set_phase ?x ?y) _ = _ =>
      change (BKUnitGetAttr (set_phase x y) BK_PHASE) with (@Ok (Z * option Z) (0, Some (s32 y))) end.
    rewrite u32_id by lia. rewrite (s32_id (_ - 1)) by lia.
    destruct (Z.gtb_spec (sm_end (un_sample u)) (sm_offset (un_sample u)));
      destruct (Z.ltb_spec (sm_offset (un_sample u)) (sm_end (un_sample u))); try lia;
      rewrite clamp_minmax by lia; rewrite s32_id by lia; do 3 f_equal; lia.
  - (* phase wrap *)
    eexists. split; [reflexivity|]. split; [|untouched].
    match goal with |- BKUnitGetAttr (set_ph ?x (mk_phase ?a ?b ?c ?d)) _ = _ =>
      change (BKUnitGetAttr (set_ph x (mk_phase a b c d)) BK_PHASE_WRAP) with (@Ok (Z * option Z) (0, Some (s32 b))) end.
    unfold BKMax. destruct (Z.eqb_spec value 0) as [->|N]; cbn [negb]; [reflexivity|].
    destruct (Z.gtb_spec value 2); rewrite s32_id by lia; do 3 f_equal; lia.
  - (* period *)
    change (BKUnitSetAttr u BK_PERIOD value) with
      (let* v := abs32 value in Ok (set_period u (BKMax v BK_MIN_PERIOD), 0)).
    rewrite abs32_val by lia. cbn [bind]. eexists. split; [reflexivity|]. split; [|untouched].
    match goal with |- BKUnitGetAttr (set_period ?x ?y) _ = _ =>
      change (BKUnitGetAttr (set_period x y) BK_PERIOD) with (@Ok (Z * option Z) (0, Some (s32 y))) end.
    unfold BKMax, BK_MIN_PERIOD. destruct (Z.gtb_spec (Z.abs value) 0); rewrite s32_id by lia; do 3 f_equal; lia.
  - (* volumes *)
    assert (Ev : BKUnitSetAttr u (BK_VOLUME_0 + k) value =
      let* v := aset (un_volume u) k (BKClamp value 0 BK_MAX_VOLUME) in Ok (set_volume u v, 0)).
    { unfold BKUnitSetAttr. attr_consts. cbv zeta.
      repeat match goal with |- context [8201 + k =? ?c] => rewrite (proj2 (Z.eqb_neq (8201 + k) c)) by lia end.
      replace ((8201 <=? 8201 + k) && (8201 + k <=? 8208)) with true by lia.
      replace (8201 + k - 8201) with k by lia. reflexivity. }
    rewrite Ev. destruct Wvol as [Wl Wv]. rewrite aset_ok by lia. cbn [bind].
    eexists. split; [reflexivity|]. split.
    + unfold BKUnitGetAttr. attr_consts. cbv zeta.
      repeat match goal with |- context [8201 + k =? ?c] => rewrite (proj2 (Z.eqb_neq (8201 + k) c)) by lia end.
      replace ((8201 <=? 8201 + k) && (8201 + k <=? 8208)) with true by lia.
      replace (8201 + k - 8201) with k by lia. ucbn.
      rewrite (aget_nth _ _ 0) by (rewrite upd_length; lia). rewrite nth_upd_eq by lia. cbn [bind].
      rewrite clamp_minmax by (cbv; discriminate). reflexivity.
    + intros other No. apply get_attr_same. unfold same_attr, phases. repeat split; intros; try reflexivity.
      ucbn. assert (other <> BK_VOLUME_0 + k) by (intros ->; apply No; left; reflexivity).
      rewrite !(aget_nth _ _ 0) by (rewrite ?upd_length; attr_consts; lia).
      rewrite nth_upd_neq by (attr_consts; lia). reflexivity.
  - eexists. split; [reflexivity|]. split; [reflexivity|untouched].
  - (* repeat mode *)
    eexists. split; [reflexivity|]. split; [|untouched].
    match goal with |- BKUnitGetAttr (set_sm ?x (s_repeatMode ?s ?y)) _ = _ =>
      change (BKUnitGetAttr (set_sm x (s_repeatMode s y)) BK_SAMPLE_REPEAT) with (@Ok (Z * option Z) (0, Some (s32 y))) end.
    unfold BK_NO_REPEAT, BK_REPEAT, BK_PALINDROME.
    destruct (Z.eqb_spec value 0) as [->|]; [reflexivity|]. destruct (Z.eqb_spec value 1) as [->|]; [reflexivity|].
    destruct (Z.eqb_spec value 2) as [->|]; reflexivity.
  - (* sample period *)
    change (BKUnitSetAttr u BK_SAMPLE_PERIOD value) with
      (let* v := abs32 value in
       Ok (set_sm u (s_period (un_sample u) (if sm_period (un_sample u) <? 0
                       then - BKClamp v BK_MIN_SAMPLE_PERIOD BK_MAX_SAMPLE_PERIOD
                       else BKClamp v BK_MIN_SAMPLE_PERIOD BK_MAX_SAMPLE_PERIOD)), 0)).
    rewrite abs32_val by lia. cbn [bind]. eexists. split; [reflexivity|]. split; [|untouched].
    match goal with |- BKUnitGetAttr (set_sm ?x (s_period ?s ?y)) _ = _ =>
      change (BKUnitGetAttr (set_sm x (s_period s y)) BK_SAMPLE_PERIOD) with (let* v := abs32 y in @Ok (Z * option Z) (0, Some v)) end.
    rewrite clamp_minmax by (cbv; discriminate). unfold BK_MIN_SAMPLE_PERIOD, BK_MAX_SAMPLE_PERIOD.
    destruct (sm_period (un_sample u) <? 0); rewrite abs32_val by lia; cbn [bind]; do 3 f_equal; lia.
  - eexists. split; [reflexivity|]. split; [|untouched].
    match goal with |- BKUnitGetAttr ?x _ = _ => change (BKUnitGetAttr x BK_SAMPLE_IMMED_RELEASE) with (@Ok (Z * option Z) (0, Some (if un_jump x then 1 else 0))) end.
    ucbn. destruct (value =? 0); reflexivity.
  - (* release *)
    change (BKUnitSetAttr u BK_FLAG_RELEASE value) with
      (if un_sustain u then
         if negb (value =? 0) && un_jump u && (un_mute u =? 0) then
           if sm_period (un_sample u) >? 0
           then Ok (set_phase (set_flags u (un_sustain u) (un_jump u) (negb (value =? 0))) (sm_sustainEnd (un_sample u)), 0)
           else let* o := chk32 (s32 (sm_sustainOffset (un_sample u)) - 1) in
                Ok (set_phase (set_flags u (un_sustain u) (un_jump u) (negb (value =? 0))) (BKMax 0 o), 0)
         else Ok (set_flags u (un_sustain u) (un_jump u) (negb (value =? 0)), 0)
       else Ok (u, 0)).
    assert (G : forall x : bkunit, BKUnitGetAttr x BK_FLAG_RELEASE = @Ok (Z * option Z) (0, Some (if un_release x then 1 else 0))) by reflexivity.
    destruct (un_sustain u).
    + destruct (_ && _ && _); [destruct (_ >? _); [|rewrite s32_id by lia; rewrite chk32_ok by lia; cbn [bind]]|];
        (eexists; split; [reflexivity|]; split; [rewrite G; ucbn; destruct (value =? 0); reflexivity|untouched]).
    + eexists. split; [reflexivity|]. split; [apply G|reflexivity].
Qed.

Lemma volume_all u value : exists u', BKUnitSetAttr u BK_VOLUME value = Ok (u', 0) /\
  (forall k, 0 <= k < 8 -> BKUnitGetAttr u' (BK_VOLUME_0 + k) = Ok (0, Some (Z.max 0 (Z.min 32767 value)))) /\
  forall other, ~ BK_VOLUME_0 <= other <= BK_VOLUME_7 -> BKUnitGetAttr u' other = BKUnitGetAttr u other.
Proof.
  eexists. split; [reflexivity|]. split.
  - intros k Hk. rewrite clamp_minmax by (cbv; discriminate). change BK_MAX_VOLUME with 32767.
    set (c := Z.max 0 (Z.min 32767 value)). clearbody c.
    assert (k = 0 \/ k = 1 \/ k = 2 \/ k = 3 \/ k = 4 \/ k = 5 \/ k = 6 \/ k = 7) as Hc by lia.
    destruct Hc as [->|[->|[->|[->|[->|[->|[->| ->]]]]]]]; reflexivity.
  - intros other No. apply get_attr_same. unfold same_attr, phases. repeat split; intros; try reflexivity.
    contradiction.
Qed.

(** Attributes that cannot be set. *)
Definition settable (attr : Z) : Prop :=
  BK_WAVEFORM <= attr <= BK_PHASE_WRAP \/ BK_VOLUME <= attr <= BK_MUTE \/
  attr = BK_SAMPLE_REPEAT \/ attr = BK_SAMPLE_IMMED_RELEASE \/ attr = BK_SAMPLE_PERIOD \/ attr = BK_FLAG_RELEASE.

Lemma attr_unknown u attr value : ~ settable attr -> BKUnitSetAttr u attr value = Ok (u, BK_INVALID_ATTRIBUTE).
Proof.
  intros No. unfold settable in No. unfold BKUnitSetAttr. cbv zeta. attr_consts.
  repeat match goal with
  | |- (if attr =? ?c then _ else _) = _ => destruct (Z.eqb_spec attr c); [exfalso; intuition lia|]
  | |- (if (8201 <=? attr) && _ then _ else _) = _ => replace ((8201 <=? attr) && (attr <=? 8208)) with false by (symmetry; apply andb_false_iff; lia)
  end. reflexivity.
Qed.

Lemma waveform_unknown u value : ~ is_table_wave value -> BKUnitSetAttr u BK_WAVEFORM value = Ok (u, BK_INVALID_VALUE).
Proof.
  intros No. unfold is_table_wave in No.
  change (match waveform_phases value with
          | None => Ok (u, BK_INVALID_VALUE)
          | Some count =>
            Ok (unit_data_state (if negb (un_waveform (set_ph u (p_count (un_phase u) count)) =? value)
                                 then set_waveform (set_phase (set_ph u (p_count (un_phase u) count)) 0) value
                                 else set_ph u (p_count (un_phase u) count)) None, 0)
          end = Ok (u, BK_INVALID_VALUE)).
  unfold waveform_phases.
  repeat match goal with |- context [value =? ?c] => destruct (Z.eqb_spec value c); [exfalso; tauto|] end. reflexivity.
Qed.

(** ** Channels *)

Theorem channels_common fuel u t u' l n : un_ctx u = Some n -> 0 <= n ->
  BK_SQUARE <= un_waveform u <= BK_CUSTOM -> BKUnitRun fuel u t = Ok (u', l) ->
  exists raw, forall k, (k < Z.to_nat n)%nat ->
    nth k l [] = (if vol u k =? 0 then [] else chan_deltas (vol u k) (lastp u k) raw) /\
    lastp u' k = (if vol u k =? 0 then lastp u k else last_level (vol u k) (lastp u k) raw).
Proof.
  intros Hn Hn0 Hw. unfold BKUnitRun. rewrite Hn. cbv zeta. intros H.
  apply bind_ok in H. destruct H as ([[u1 t1] l1] & E & H).
  assert (u' = set_time u1 (if t1 <? t then t else t1) /\ l = l1) as [-> ->] by (split; congruence).
  change (lastp (set_time u1 (if t1 <? t then t else t1))) with (lastp u1).
  assert (Idle : forall x, Ok (u, x, repeat [] (Z.to_nat n)) = Ok (u1, t1, l1) -> exists raw, forall k, (k < Z.to_nat n)%nat ->
    nth k l1 [] = (if vol u k =? 0 then [] else chan_deltas (vol u k) (lastp u k) raw) /\
    lastp u1 k = (if vol u k =? 0 then lastp u k else last_level (vol u k) (lastp u k) raw)).
  { intros x Hx. assert (u1 = u /\ l1 = repeat [] (Z.to_nat n)) as [-> ->] by (split; congruence).
    exists []. intros k _. rewrite nth_repeat_nil. destruct (vol u k =? 0); split; reflexivity. }
  destruct (un_period u =? 0); [exact (Idle _ E)|].
  replace ((BK_SQUARE <=? un_waveform u) && (un_waveform u <=? BK_CUSTOM)) with true in E by lia.
  revert E. unfold BKUnitRunWaveform. destruct (negb _); [apply Idle|]. intros E.
  change 0 with (Z.of_nat 0) in E at 1. apply wave_channels_char in E.
  destruct E as (m & _ & _ & _ & P & N). cbv zeta in P, N. cbn [Nat.add] in P, N.
  eexists. intros k Hk. split; [apply N; exact Hk|]. rewrite P.
  replace ((0 <=? k)%nat && (k <? Z.to_nat n)%nat) with true.
  - cbn [andb]. destruct (vol u k =? 0); reflexivity.
  - symmetry. apply andb_true_iff. split; [reflexivity|apply Nat.ltb_lt; exact Hk].
Qed.

Lemma run_raw_any fuel u v endTime : same_wave u v -> un_time u = un_time v ->
  ph_phase (un_phase u) = ph_phase (un_phase v) -> ph_wrapCount (un_phase u) = ph_wrapCount (un_phase v) ->
  run_raw fuel u endTime (un_time u) (ph_phase (un_phase u)) (ph_wrapCount (un_phase u)) =
  run_raw fuel v endTime (un_time v) (ph_phase (un_phase v)) (ph_wrapCount (un_phase v)).
Proof. intros S1 -> -> ->. apply run_raw_same. exact S1. Qed.

Theorem channels_phase fu fv u v t u' lu v' lv n m : un_ctx u = Some n -> un_ctx v = Some m ->
  same_wave u v -> un_time u = un_time v ->
  ph_phase (un_phase u) = ph_phase (un_phase v) -> ph_wrapCount (un_phase u) = ph_wrapCount (un_phase v) ->
  un_mute u = un_mute v -> BK_SQUARE <= un_waveform u <= BK_CUSTOM ->
  (exists k, (k < Z.to_nat n)%nat /\ vol u k <> 0) -> (exists k, (k < Z.to_nat m)%nat /\ vol v k <> 0) ->
  BKUnitRun fu u t = Ok (u', lu) -> BKUnitRun fv v t = Ok (v', lv) ->
  un_phase u' = un_phase v' /\ un_time u' = un_time v'.
Proof.
  intros Hn Hm Sw St Sp Sc Sm Hw Au Av Hu Hv.
  assert (Sph : un_phase u = un_phase v).
  { destruct Sw as (_ & _ & S1 & S2 & _). destruct (un_phase u) as [p1 p2 p3 p4], (un_phase v) as [q1 q2 q3 q4]. cbn [ph_phase ph_wrap ph_wrapCount ph_count] in *. congruence. }
  assert (Key : forall f x n y l, un_ctx x = Some n -> BK_SQUARE <= un_waveform x <= BK_CUSTOM ->
     (exists k, (k < Z.to_nat n)%nat /\ vol x k <> 0) -> BKUnitRun f x t = Ok (y, l) ->
     if (un_period x =? 0) then un_phase y = un_phase x /\ un_time y = (if un_time x <? t then t else un_time x)
     else if negb (un_mute x =? 0) then un_phase y = un_phase x /\ un_time y = (if 0 <? t then t else 0)
     else exists t0 ph wc raw, run_raw f x t (un_time x) (ph_phase (un_phase x)) (ph_wrapCount (un_phase x)) = Ok (t0, ph, wc, raw) /\
        un_phase y = p_wrapCount (p_phase (un_phase x) ph) wc /\ un_time y = (if t0 <? t then t else t0)).
  { clear. intros f x n y l Hn Hw A. unfold BKUnitRun. rewrite Hn. cbv zeta. intros H.
    apply bind_ok in H. destruct H as ([[u1 t1] l1] & E & H).
    assert (y = set_time u1 (if t1 <? t then t else t1)) as -> by congruence. ucbn.
    destruct (un_period x =? 0); [assert (u1 = x /\ t1 = un_time x) as [-> ->] by (split; congruence); split; reflexivity|].
    replace ((BK_SQUARE <=? un_waveform x) && (un_waveform x <=? BK_CUSTOM)) with true in E by lia.
    revert E. unfold BKUnitRunWaveform. destruct (negb _); intros E;
      [assert (u1 = x /\ t1 = 0) as [-> ->] by (split; congruence); split; reflexivity|].
    change 0 with (Z.of_nat 0) in E at 1. apply wave_channels_char in E.
    destruct E as (m & C & _). cbn [Nat.add] in C. destruct m as [[[[t0 ph] wc] raw]|].
    - destruct C as (C & _ & -> & C2). exists t0, ph, wc, raw. split; [exact C|]. rewrite C2. split; reflexivity.
    - destruct C as (C & _). destruct A as (k & Hk & Ak). exfalso. apply Ak. apply C. lia. }
  pose proof (Key _ _ _ _ _ Hn Hw Au Hu) as K1.
  assert (Hw' : BK_SQUARE <= un_waveform v <= BK_CUSTOM) by (destruct Sw as (<- & _); exact Hw).
  pose proof (Key _ _ _ _ _ Hm Hw' Av Hv) as K2.
  assert (Sper : un_period u = un_period v) by apply Sw. rewrite <- Sper, <- Sm, <- Sph, <- St in K2.
  destruct (un_period u =? 0); [destruct K1, K2; split; congruence|].
  destruct (negb _); [destruct K1, K2; split; congruence|].
  destruct K1 as (t0 & ph & wc & raw & K1 & K1' & K1''). destruct K2 as (t1 & ph1 & wc1 & raw1 & K2 & K2' & K2'').
  rewrite (run_raw_same fv v u) in K2.
  - unfold run_raw in K1, K2. apply bind_ok in K1, K2. destruct K1 as ([[[a b] c] r] & K1 & E1). destruct K2 as ([[[a2 b2] c2] r2] & K2 & E2).
    apply (wave_raw_fuel _ _ _ _ _ _ _ K1) with (more := fv) in K1 || apply wave_raw_fuel with (more := fv) in K1.
    apply wave_raw_fuel with (more := fu) in K2. rewrite Nat.add_comm in K2. rewrite K1 in K2.
    rewrite K1', K1'', K2', K2''. assert (t0 = t1 /\ ph = ph1 /\ wc = wc1) as (-> & -> & ->) by (repeat split; congruence).
    split; reflexivity.
  - destruct Sw as (S1 & S2 & S3 & S4 & S5 & S6). repeat split; congruence.
Qed.

(** ** Repeating samples *)

Definition repeats (u : bkunit) : bool :=
  match sm_callback (un_sample u) with
  | Some _ => false
  | None => (sm_repeatMode (un_sample u) =? BK_REPEAT) || (sm_repeatMode (un_sample u) =? BK_PALINDROME)
  end.

Lemma reset_halts fuel u u' h : BKUnitResetSample fuel u = Ok (u', h) ->
  s32 (ph_phase (un_phase u)) < 0 \/ s32 (sm_length (un_sample u)) <= s32 (ph_phase (un_phase u)) ->
  0 <= sm_repeatMode (un_sample u) <= 2 ->
  h = negb (repeats u) /\
  sm_repeatCount (un_sample u') = u32 (sm_repeatCount (un_sample u) + 1).
Proof.
  intros H Hp Hm. unfold BKUnitResetSample in H. cbv zeta in H. unfold repeats.
  apply bind_ok in H. destruct H as ([phase dir] & E & H).
  assert (Hd : dir = 1 \/ dir = -1).
  { unfold BKUnitWrapSamplePhase in E. apply bind_ok in E. destruct E as (len & _ & E).
    destruct (Z.geb_spec (s32 (ph_phase (un_phase u))) (s32 (sm_length (un_sample u)))).
    - apply bind_ok in E. destruct E as (p & _ & E). left. congruence.
    - destruct (Z.ltb_spec (s32 (ph_phase (un_phase u))) 0); [|lia].
      apply bind_ok in E. destruct E as (p & _ & E). right. congruence. }
  clear E. rewrite (s32_id (sm_repeatMode (un_sample u))) in H by lia. unfold BK_REPEAT, BK_PALINDROME in *.
  assert (K : forall (x : bkunit) y, Ok (x, y) = Ok (u', h) -> u' = x /\ h = y) by (intros; split; congruence).
  destruct (sm_callback (un_sample u)).
  - change (s32 (BKUnitCallSampleCallback (Some z)) =? 1) with false in H.
    change (s32 (BKUnitCallSampleCallback (Some z)) =? 2) with false in H. cbn iota in H.
    change (0 =? 0) with true in H. cbn iota in H. apply K in H. destruct H as [-> ->]. split; reflexivity.
  - destruct (Z.eqb_spec (sm_repeatMode (un_sample u)) 1) as [E1|E1].
    { destruct (Z.eqb_spec dir 0); [lia|]. apply bind_ok in H. destruct H as (p & _ & H).
      apply K in H. destruct H as [-> ->]. split; reflexivity. }
    destruct (Z.eqb_spec (sm_repeatMode (un_sample u)) 2) as [E2|E2].
    { destruct (Z.eqb_spec (- dir) 0); [lia|]. apply bind_ok in H. destruct H as (p & _ & H).
      apply K in H. destruct H as [-> ->]. split; reflexivity. }
    change (0 =? 0) with true in H. cbn iota in H. apply K in H. destruct H as [-> ->]. split; reflexivity.
Qed.

Lemma repeats_frame u v : same_frame u v -> repeats u = repeats v.
Proof.
  intros (_ & _ & _ & _ & _ & _ & _ & _ & _ & _ & _ & _ & _ & _ & _ & _ & _ & Hr & _ & _ & Hc & _).
  unfold repeats. rewrite Hr, Hc. reflexivity.
Qed.
Lemma mode_frame u v : same_frame u v -> sm_repeatMode (un_sample u) = sm_repeatMode (un_sample v).
Proof. intros (_ & _ & _ & _ & _ & _ & _ & _ & _ & _ & _ & _ & _ & _ & _ & _ & _ & Hr & _). exact Hr. Qed.

Lemma advance_count u u' : sample_advance u = Ok u' -> sm_repeatCount (un_sample u') = sm_repeatCount (un_sample u).
Proof.
  unfold sample_advance. cbv zeta. intros H. apply bind_ok in H. destruct H as (x & _ & H).
  match type of H with Ok ?y = _ => assert (u' = y) as -> by congruence end. reflexivity.
Qed.
Lemma sustain_count c u : sm_repeatCount (un_sample (sustain_step c u)) = sm_repeatCount (un_sample u).
Proof.
  unfold sustain_step. cbv zeta. destruct c; [|reflexivity]. destruct (_ >? _); [destruct (_ >=? _)|destruct (_ <? _)]; reflexivity.
Qed.

Lemma sample_loop_repeats fuel : forall u n c time t u' t' l, sample_loop fuel u n c time t = Ok (u', t', l) ->
  0 <= sm_repeatMode (un_sample u) <= 2 ->
  (repeats u = true -> un_mute u' = un_mute u) /\
  (repeats u = false ->
   sm_repeatCount (un_sample u') = sm_repeatCount (un_sample u) /\ un_mute u' = un_mute u \/
   sm_repeatCount (un_sample u') = u32 (sm_repeatCount (un_sample u) + 1) /\ un_mute u' = 1).
Proof.
  induction fuel as [|fuel IH]; intros * H Hm; cbn [sample_loop] in H; destruct (u32 time <? t).
  - discriminate.
  - assert (u' = u) as -> by congruence. split; [reflexivity|]. left. split; reflexivity.
  - cbv zeta in H. apply bind_ok in H. destruct H as ([last d] & _ & H).
    apply bind_ok in H. destruct H as (at_ & _ & H). apply bind_ok in H. destruct H as (u1 & E1 & H).
    apply bind_ok in H. destruct H as ([u2 halt] & E2 & H).
    pose proof (advance_count _ _ E1) as C1. change (sm_repeatCount (un_sample (set_lastPulse u last))) with (sm_repeatCount (un_sample u)) in C1.
    apply advance_frame in E1. destruct E1 as (F1 & M1 & _).
    change (un_mute (set_lastPulse u last)) with (un_mute u) in M1.
    assert (R1 : repeats u1 = repeats u) by exact (repeats_frame _ _ F1).
    assert (D1 : sm_repeatMode (un_sample u1) = sm_repeatMode (un_sample u)) by exact (mode_frame _ _ F1).
    assert (Go : un_mute u2 = un_mute u -> repeats u2 = repeats u -> sm_repeatMode (un_sample u2) = sm_repeatMode (un_sample u) ->
      (repeats u = true \/ sm_repeatCount (un_sample u2) = sm_repeatCount (un_sample u)) ->
      (let* next := chk32 (time + BK_FINT20_UNIT) in
        let* (u, t, l) := sample_loop fuel (sustain_step c u2) n c next t in
        Ok (u, t, zip_pulses (u32 at_) d l)) = Ok (u', t', l) ->
      (repeats u = true -> un_mute u' = un_mute u) /\
      (repeats u = false ->
       sm_repeatCount (un_sample u') = sm_repeatCount (un_sample u) /\ un_mute u' = un_mute u \/
       sm_repeatCount (un_sample u') = u32 (sm_repeatCount (un_sample u) + 1) /\ un_mute u' = 1)).
    { intros G1 G2 G3 G4 G. apply bind_ok in G. destruct G as (next & _ & G). apply bind_ok in G. destruct G as ([[u3 t3] l3] & E3 & G).
      assert (u' = u3) as -> by congruence. clear G.
      destruct (sustain_frame c u2) as (F3 & M3 & _).
      apply IH in E3; [|rewrite (mode_frame _ _ F3), G3; exact Hm].
      rewrite (repeats_frame _ _ F3), G2, M3, G1, sustain_count in E3. destruct E3 as [I1 I2]. split; [exact I1|].
      intros R. destruct G4 as [G4|G4]; [congruence|]. rewrite G4 in I2. exact (I2 R). }
    destruct ((s32 (ph_phase (un_phase u1)) <? 0) || _) eqn:Eh.
    + pose proof E2 as E2'. apply reset_halts in E2'; [|lia|rewrite D1; exact Hm]. destruct E2' as [Eh2 C2].
      apply reset_frame in E2. destruct E2 as (F2 & M2 & _). rewrite C1 in C2. rewrite R1 in Eh2.
      destruct halt.
      * assert (u' = u2) as -> by congruence. symmetry in Eh2. apply negb_true_iff in Eh2.
        split; [congruence|]. intros _. right. split; [exact C2|exact M2].
      * symmetry in Eh2. apply negb_false_iff in Eh2. apply Go; auto; [congruence| |].
        -- rewrite (repeats_frame _ _ F2). exact R1.
        -- rewrite (mode_frame _ _ F2). exact D1.
    + assert (u2 = u1 /\ halt = false) as [-> ->] by (split; congruence). apply Go; auto.
  - assert (u' = u) as -> by congruence. split; [reflexivity|]. left. split; reflexivity.
Qed.

Theorem run_repeats fuel u t u' l : unit_wf u -> un_waveform u = BK_SAMPLE -> BKUnitRun fuel u t = Ok (u', l) ->
  (repeats u = true -> un_mute u' = un_mute u) /\
  (repeats u = false ->
   sm_repeatCount (un_sample u') = sm_repeatCount (un_sample u) /\ un_mute u' = un_mute u \/
   sm_repeatCount (un_sample u') = u32 (sm_repeatCount (un_sample u) + 1) /\ un_mute u' = 1).
Proof.
  intros W Hw. unfold BKUnitRun. destruct (un_ctx u) as [n|]; [|discriminate]. cbv zeta. intros H.
  apply bind_ok in H. destruct H as ([[u1 t1] l1] & E & H).
  assert (u' = set_time u1 (if t1 <? t then t else t1)) as -> by congruence. clear H.
  change (un_mute (set_time u1 (if t1 <? t then t else t1))) with (un_mute u1).
  change (un_sample (set_time u1 (if t1 <? t then t else t1))) with (un_sample u1).
  assert (Idle : forall x y, Ok (u, x, y) = Ok (u1, t1, l1) -> (repeats u = true -> un_mute u1 = un_mute u) /\
    (repeats u = false ->
     sm_repeatCount (un_sample u1) = sm_repeatCount (un_sample u) /\ un_mute u1 = un_mute u \/
     sm_repeatCount (un_sample u1) = u32 (sm_repeatCount (un_sample u) + 1) /\ un_mute u1 = 1)).
  { intros x y Hx. assert (u1 = u) as -> by congruence. split; [reflexivity|]. left. split; reflexivity. }
  destruct (un_period u =? 0); [exact (Idle _ _ E)|]. rewrite Hw in E.
  change ((BK_SQUARE <=? BK_SAMPLE) && (BK_SAMPLE <=? BK_CUSTOM)) with false in E.
  change (BK_SAMPLE =? BK_SAMPLE) with true in E. cbn iota in E.
  revert E. unfold BKUnitRunSample. destruct (negb _); [apply Idle|]. intros E.
  apply bind_ok in E. destruct E as (d & _ & E). apply bind_ok in E. destruct E as (len & _ & E).
  destruct (len <? 2); [exact (Idle _ _ E)|].
  apply bind_ok in E. destruct E as ([[u2 t2] l2] & E2 & E). assert (u1 = u2) as -> by congruence.
  eapply sample_loop_repeats; [exact E2|apply W].
Qed.

(** ** Ranges *)

Theorem range_readback u a b d : unit_safe u -> un_waveform u = BK_SAMPLE -> sm_data (un_sample u) = Some d ->
  in_s32 a = true -> in_s32 b = true ->
  exists u', BKUnitSetPtr u BK_SAMPLE_RANGE (PRange a b) = Ok (u', 0) /\
    BKUnitGetPtr u' BK_SAMPLE_RANGE = (0, PRange (range_bound (w_numFrames d) a) (range_bound (w_numFrames d) b)) /\
    BKUnitGetPtr u' BK_SAMPLE_SUSTAIN_RANGE = (0, PRange 0 0) /\
    BKUnitGetAttr u' BK_NUM_PHASES =
      Ok (0, Some (Z.abs (range_bound (w_numFrames d) a - range_bound (w_numFrames d) b))).
Proof.
  intros U Hw Hd Ha Hb. apply in_s32_range in Ha, Hb.
  assert (Wd : wdata_ok d) by (destruct U as [W _]; exact (wf_data u W d Hd)).
  destruct (range_update u a b d U Hw Hd Ha Hb) as (phase & Hp & Hp2 & E).
  destruct (range_norm d a Wd Ha) as (_ & _ & _ & RA). destruct (range_norm d b Wd Hb) as (_ & _ & _ & RB).
  assert (HN : 0 <= w_numFrames d <= 1073741824).
  { destruct Wd as (D1 & D2 & D3 & _). clear - D1 D2 D3. nia. }
  set (A := range_bound (w_numFrames d) a) in *. set (B := range_bound (w_numFrames d) b) in *.
  destruct (range_safe u a b U Hw Ha Hb) as (u1 & u2 & E1 & E2 & U2). rewrite E in E1.
  match type of E1 with Ok ?x = _ => assert (Ex : u1 = x) by congruence end.
  assert (D1 : sm_data (un_sample u1) = Some d) by (rewrite Ex; exact Hd).
  unfold BKUnitUpdateSampleSustainRange in E2. rewrite D1 in E2. change (0 <? 0) with false in E2. cbv zeta in E2. cbn [bind] in E2.
  destruct Wd as (Dn & _). 
  assert (C0 : BKClamp 0 0 (s32 (w_numFrames d)) = 0) by (rewrite s32_id by lia; rewrite clamp_minmax by lia; lia).
  rewrite C0 in E2. change (0 <? 0) with false in E2. cbn iota in E2. change (negb (0 =? 0)) with false in E2.
  match type of E2 with Ok ?x = _ => assert (Ex2 : u2 = x) by congruence end.
  exists u2. split.
  { change (BKUnitSetPtr u BK_SAMPLE_RANGE (PRange a b)) with
      (if negb (un_waveform u =? BK_SAMPLE) then Ok (u, BK_INVALID_STATE)
       else let* u := BKUnitUpdateSampleRange u a b in let* u := BKUnitUpdateSampleSustainRange u 0 0 in Ok (u, 0)).
    rewrite Hw. change (negb (BK_SAMPLE =? BK_SAMPLE)) with false. cbn iota. rewrite E. cbn [bind]. rewrite <- Ex.
    unfold BKUnitUpdateSampleSustainRange. rewrite D1. change (0 <? 0) with false. cbv zeta. cbn [bind].
    rewrite C0. change (0 <? 0) with false. cbn iota. change (negb (0 =? 0)) with false. rewrite Ex2. reflexivity. }
  split; [|split].
  - change (BKUnitGetPtr u2 BK_SAMPLE_RANGE) with (0, PRange (s32 (sm_offset (un_sample u2))) (s32 (sm_end (un_sample u2)))).
    rewrite Ex2, Ex. ucbn. rewrite !s32_id by lia. reflexivity.
  - rewrite Ex2. reflexivity.
  - change (BKUnitGetAttr u2 BK_NUM_PHASES) with
      (@Ok (Z * option Z) (0, Some (s32 (if negb (un_waveform u2 =? BK_SAMPLE) then ph_count (un_phase u2) else sm_length (un_sample u2))))).
    rewrite Ex2, Ex. ucbn. rewrite Hw. change (negb (BK_SAMPLE =? BK_SAMPLE)) with false. cbn iota. rewrite s32_id by lia. reflexivity.
Qed.

Theorem sustain_readback u a b d : unit_safe u -> un_waveform u = BK_SAMPLE -> sm_data (un_sample u) = Some d ->
  in_s32 a = true -> in_s32 b = true -> a <> b ->
  exists u', BKUnitSetPtr u BK_SAMPLE_SUSTAIN_RANGE (PRange a b) = Ok (u', 0) /\
    BKUnitGetPtr u' BK_SAMPLE_SUSTAIN_RANGE =
      (0, PRange (Z.min (range_bound (w_numFrames d) a) (range_bound (w_numFrames d) b))
                 (Z.max (range_bound (w_numFrames d) a) (range_bound (w_numFrames d) b))) /\
    BKUnitGetPtr u' BK_SAMPLE_RANGE = BKUnitGetPtr u BK_SAMPLE_RANGE.
Proof.
  intros U Hw Hd Ha Hb Hab. apply in_s32_range in Ha, Hb.
  assert (Wd : wdata_ok d) by (destruct U as [W _]; exact (wf_data u W d Hd)).
  pose proof (sustain_update u a b d (proj1 U) Hd Ha Hb) as E. cbv zeta in E.
  destruct (range_norm d a Wd Ha) as (_ & _ & _ & RA). destruct (range_norm d b Wd Hb) as (_ & _ & _ & RB).
  assert (HN : 0 <= w_numFrames d <= 1073741824).
  { destruct Wd as (D1 & D2 & D3 & _). clear - D1 D2 D3. nia. }
  set (A := range_bound (w_numFrames d) a) in *. set (B := range_bound (w_numFrames d) b) in *. clearbody A B.
  eexists. split.
  { change (BKUnitSetPtr u BK_SAMPLE_SUSTAIN_RANGE (PRange a b)) with
      (if negb (un_waveform u =? BK_SAMPLE) then Ok (u, BK_INVALID_STATE)
       else let* (a, b) := Ok (if a =? b then (0, 0) else (a, b)) in let* u := BKUnitUpdateSampleSustainRange u a b in Ok (u, 0)).
    rewrite Hw. change (negb (BK_SAMPLE =? BK_SAMPLE)) with false. cbn iota.
    destruct (Z.eqb_spec a b); [contradiction|]. cbn [bind]. rewrite E. reflexivity. }
  split; [|reflexivity].
  match goal with |- BKUnitGetPtr ?x _ = _ => change (BKUnitGetPtr x BK_SAMPLE_SUSTAIN_RANGE) with
    (0, PRange (s32 (sm_sustainOffset (un_sample x))) (s32 (sm_sustainEnd (un_sample x)))) end.
  ucbn. rewrite !s32_id by lia. reflexivity.
Qed.

(** Phase a range starts with, nothing of the sample being played. *)
Lemma range_start u a b d : unit_safe u -> un_waveform u = BK_SAMPLE -> sm_data (un_sample u) = Some d ->
  in_s32 a = true -> in_s32 b = true ->
  sm_repeatCount (un_sample u) = 0 -> ph_phase (un_phase u) = 0 ->
  let A := range_bound (w_numFrames d) a in
  let B := range_bound (w_numFrames d) b in
  2 <= Z.abs (A - B) ->
  exists u', BKUnitSetPtr u BK_SAMPLE_RANGE (PRange a b) = Ok (u', 0) /\
    ph_phase (un_phase u') = Z.abs (A - B) - 1 /\
    (0 <= sm_period (un_sample u') <-> A < B).
Proof.
  intros U Hw Hd Ha Hb Hr Hph A B HL. apply in_s32_range in Ha, Hb.
  assert (Wd : wdata_ok d) by (destruct U as [W _]; exact (wf_data u W d Hd)).
  assert (W : unit_wf u) by apply U.
  destruct (range_norm d a Wd Ha) as (wa & Na & Ca & RA). destruct (range_norm d b Wd Hb) as (wb & Nb & Cb & RB).
  fold A in Ca, RA. fold B in Cb, RB. clearbody A B.
  assert (HN : 0 <= w_numFrames d <= 1073741824).
  { destruct Wd as (D1 & D2 & D3 & _). clear - D1 D2 D3. nia. }
  destruct (range_safe u a b U Hw Ha Hb) as (u1 & u2 & E1 & E2 & U2).
  exists u2. split.
  { change (BKUnitSetPtr u BK_SAMPLE_RANGE (PRange a b)) with
      (if negb (un_waveform u =? BK_SAMPLE) then Ok (u, BK_INVALID_STATE)
       else let* u := BKUnitUpdateSampleRange u a b in let* u := BKUnitUpdateSampleSustainRange u 0 0 in Ok (u, 0)).
    rewrite Hw. change (negb (BK_SAMPLE =? BK_SAMPLE)) with false. cbn iota. rewrite E1. cbn [bind]. rewrite E2. reflexivity. }
  assert (P2 : un_phase u2 = un_phase u1 /\ sm_period (un_sample u2) = sm_period (un_sample u1)).
  { clear - E2. unfold BKUnitUpdateSampleSustainRange in E2. cbv zeta in E2.
    destruct (sm_data (un_sample u1)); [|assert (u2 = u1) as -> by congruence; split; reflexivity].
    repeat (apply bind_ok in E2; destruct E2 as (? & _ & E2)).
    match type of E2 with (let (_, _) := ?e in _) = _ => destruct e end.
    match type of E2 with Ok ?x = _ => assert (u2 = x) as -> by congruence end. split; reflexivity. }
  destruct P2 as [-> ->].
  unfold BKUnitUpdateSampleRange in E1. cbv zeta in E1. rewrite Hd in E1.
  match type of E1 with bind ?x _ = _ => replace x with (@Ok Z wa) in E1 by (symmetry; exact Na) end. cbn [bind] in E1. rewrite Ca in E1.
  match type of E1 with bind ?x _ = _ => replace x with (@Ok Z wb) in E1 by (symmetry; exact Nb) end. cbn [bind] in E1. rewrite Cb in E1.
  apply bind_ok in E1. destruct E1 as (dif & _ & E1). apply bind_ok in E1. destruct E1 as (per & Ep & E1).
  match type of E1 with Ok ?x = _ => assert (u1 = x) as -> by congruence end. clear E1. ucbn.
  rewrite Hr, Hph. change (0 =? 0) with true. cbn iota.
  assert (Hper : per = Z.abs (sm_period (un_sample u))).
  { pose proof (wf_sper u W) as Hs. rewrite abs32_val in Ep by lia. congruence. }
  pose proof (wf_sper u W) as Hs.
  assert (HA : BKAbs (A - B) = Z.abs (A - B)) by (unfold BKAbs; destruct (Z.ltb_spec (A - B) 0); lia).
  rewrite HA. rewrite (u32_id (Z.abs (A - B) - 1)) by lia. rewrite (s32_id (Z.abs (A - B) - 1)) by lia.
  destruct (Z.eqb_spec 0 (Z.abs (A - B) - 1)); [lia|]. rewrite andb_false_r.
  rewrite u32_id by lia. split; [reflexivity|].
  destruct (Z.gtb_spec A B); lia.
Qed.

(** ** Noise *)

Fixpoint lfsr_check (k : nat) (p : Z) : bool :=
  match k with O => true | S k => (noise_next p =? lfsr_next p) && lfsr_check k (p + 1) end.

Lemma lfsr_check_spec k : forall p, lfsr_check k p = true ->
  forall q, p <= q < p + Z.of_nat k -> noise_next q = lfsr_next q.
Proof.
  induction k as [|k IH]; intros p H q Hq; [lia|].
  cbn [lfsr_check] in H. apply andb_true_iff in H. destruct H as [H1 H2].
  destruct (Z.eq_dec q p) as [-> |N]; [lia|]. apply (IH _ H2). lia.
Qed.

Lemma lfsr_noise p : 0 <= p < 65536 -> noise_next p = lfsr_next p.
Proof.
  intros H. apply (lfsr_check_spec (Z.to_nat 65536) 0); [vm_compute; reflexivity|].
  rewrite Z2Nat.id; lia.
Qed.

Fixpoint value_check (k : nat) (p : Z) : bool :=
  match k with
  | O => true
  | S k => (snd (noise_step p) =? (if noise_next p <? 32768 then -16383 else 16383)) && value_check k (p + 1)
  end.
Lemma value_check_spec k : forall p, value_check k p = true ->
  forall q, p <= q < p + Z.of_nat k -> snd (noise_step q) = if noise_next q <? 32768 then -16383 else 16383.
Proof.
  induction k as [|k IH]; intros p H q Hq; [lia|].
  cbn [value_check] in H. apply andb_true_iff in H. destruct H as [H1 H2].
  destruct (Z.eq_dec q p) as [-> |N]; [apply Z.eqb_eq; exact H1|]. apply (IH _ H2). lia.
Qed.
Lemma noise_value p : noise_state p -> snd (noise_step p) = if noise_next p <? 32768 then -16383 else 16383.
Proof.
  intros H. unfold noise_state in H. apply (value_check_spec (Z.to_nat 65536) 0); [vm_compute; reflexivity|].
  rewrite Z2Nat.id; lia.
Qed.
