(** Samples: the frames a unit plays, step by step.  Used for C114. *)
From Verif Require Import CInt CIntFacts DataModel UnitModel UnitSpec UnitProofs UnitProofs2 UnitProofs3 UnitProofs4 UnitInv UnitInv2 UnitInv3 UnitProofs5 PropertiesUnit PropertiesPeriod.
Ltac Zify.zify_post_hook ::= idtac.

(** ** A player of frames *)

(** The position in a sample, its fraction in units of 1/2^20 frames, the frames per step in the
    same unit, and whether the player has stopped. *)
Record spos := mk_spos { q_pos : Z; q_frac : Z; q_speed : Z; q_halt : bool }.

(** How a sample of [len] frames goes on at its ends, and the range which is held. *)
Definition raw_pos (s : spos) (j : Z) : Z := q_pos s + (q_frac s + j * q_speed s) / 1048576.
Definition raw_frac (s : spos) (j : Z) : Z := (q_frac s + j * q_speed s) mod 1048576.

Definition held_pos (hold : option (Z * Z)) (p speed : Z) : Z :=
  match hold with
  | Some (a, b) => if 0 <? speed then (if b <=? p then a else p) else (if p <? a then b - 1 else p)
  | None => p
  end.

Definition hold_in (hold : option (Z * Z)) (s : spos) : spos :=
  mk_spos (held_pos hold (q_pos s) (q_speed s)) (q_frac s) (q_speed s) (q_halt s).

Definition advance (mode len : Z) (hold : option (Z * Z)) (s : spos) : spos :=
  if q_halt s then s
  else
    let z := q_pos s + (q_frac s + q_speed s) / 1048576 in
    let f := (q_frac s + q_speed s) mod 1048576 in
    if (0 <=? z) && (z <? len) then hold_in hold (mk_spos z f (q_speed s) false)
    else if mode =? BK_REPEAT then hold_in hold (mk_spos (z mod len) f (q_speed s) false)
    else if mode =? BK_PALINDROME then hold_in hold (mk_spos (if z <? 0 then - z else 2 * len - 1 - z) f (- q_speed s) false)
    else mk_spos (z mod len) f (q_speed s) true.

(** [n] steps, one in 2^20 clock units: the times of the frames, and what [g] says of their positions. *)
Fixpoint play (n : nat) (mode len : Z) (hold : option (Z * Z)) (s : spos) (t : Z) (g : Z -> Z) : list (Z * Z) :=
  match n with
  | O => []
  | S n => if q_halt s then [] else (t + q_frac s, g (q_pos s)) :: play n mode len hold (advance mode len hold s) (t + 1048576) g
  end.

Fixpoint reach (n : nat) (mode len : Z) (hold : option (Z * Z)) (s : spos) : spos :=
  match n with O => s | S n => reach n mode len hold (advance mode len hold s) end.

Lemma reach_halted mode len hold n : forall s, q_halt s = true -> reach n mode len hold s = s.
Proof. induction n as [|n IH]; intros s H; cbn [reach]; [reflexivity|]. unfold advance. rewrite H. apply IH. exact H. Qed.

Lemma play_halted mode len hold n s t g : q_halt s = true -> play n mode len hold s t g = [].
Proof. intros H. destruct n; cbn [play]; [reflexivity|]. rewrite H. reflexivity. Qed.

Lemma reach_add mode len hold a : forall b s, reach (a + b) mode len hold s = reach b mode len hold (reach a mode len hold s).
Proof. induction a as [|a IH]; intros b s; cbn [Nat.add reach]; [reflexivity|apply IH]. Qed.

Lemma play_app mode len hold g a : forall b s t,
  play (a + b) mode len hold s t g = play a mode len hold s t g ++ play b mode len hold (reach a mode len hold s) (t + Z.of_nat a * 1048576) g.
Proof.
  induction a as [|a IH]; intros b s t; cbn [Nat.add play reach app].
  - rewrite Z.add_0_r. reflexivity.
  - destruct (q_halt s) eqn:H.
    + unfold advance. rewrite H, reach_halted by exact H. rewrite play_halted by exact H. reflexivity.
    + cbn [app]. f_equal. rewrite IH. f_equal. f_equal. lia.
Qed.

Lemma play_shift now mode len hold g n : forall s t, map (fun tp => (now + fst tp, snd tp)) (play n mode len hold s t g) = play n mode len hold s (now + t) g.
Proof.
  induction n as [|n IH]; intros s t; cbn [play]; [reflexivity|]. destruct (q_halt s); [reflexivity|]. cbn [map fst snd]. rewrite IH. f_equal; [f_equal; ring|]. f_equal. ring.
Qed.

Lemma play_ext mode len hold g g' : (forall p, g p = g' p) -> forall n s t, play n mode len hold s t g = play n mode len hold s t g'.
Proof. intros G. induction n as [|n IH]; intros s t; cbn [play]; [reflexivity|]. rewrite IH, G. reflexivity. Qed.

Lemma div_next f s j : (f + (1 + j) * s) / 1048576 = (f + s) / 1048576 + ((f + s) mod 1048576 + j * s) / 1048576 /\
  (f + (1 + j) * s) mod 1048576 = ((f + s) mod 1048576 + j * s) mod 1048576.
Proof.
  pose proof (Z.div_mod (f + s) 1048576 ltac:(lia)) as D. set (q := (f + s) / 1048576) in *. set (r := (f + s) mod 1048576) in *.
  replace (f + (1 + j) * s) with (r + j * s + q * 1048576) by lia. rewrite Z.div_add, Z.mod_add by lia. split; [ring|reflexivity].
Qed.

(** The frame of channel [c] at position [p]. *)
Definition frame_at (u : bkunit) (c : nat) (p : Z) : Z :=
  match sm_frames (un_sample u) with
  | Some (frames, base) =>
    nth (Z.to_nat (base + p * sm_numChannels (un_sample u) + (if sm_numChannels (un_sample u) =? 1 then 0 else Z.of_nat c))) frames 0
  | None => 0
  end.

(** The player of a unit.  A unit with a callback does not repeat. *)
Definition mode_of (u : bkunit) : Z := match sm_callback (un_sample u) with Some _ => BK_NO_REPEAT | None => sm_repeatMode (un_sample u) end.
Definition hold_of (u : bkunit) : option (Z * Z) :=
  if un_sustain u && negb (un_release u) then Some (sm_sustainOffset (un_sample u), sm_sustainEnd (un_sample u)) else None.
Definition pos_of (u : bkunit) : spos :=
  mk_spos (ph_phase (un_phase u)) (sm_timeFrac (un_sample u)) (sm_period (un_sample u)) (negb (un_mute u =? 0)).

(** ** Wrapping *)

Lemma wrap_down_mod fuel : forall phase len r, 2 <= len <= 1073741824 -> 0 <= phase < 2147483648 -> wrap_down fuel phase len len = Ok r -> r = phase mod len.
Proof.
  induction fuel as [|fuel IH]; intros * L P E; cbn [wrap_down] in E; rewrite s32_id in E by lia; destruct (Z.geb_spec phase len); try discriminate E;
    try (assert (r = phase) as -> by congruence; rewrite Z.mod_small by lia; reflexivity).
  rewrite u32_id in E by lia. apply IH in E; [|lia|lia]. rewrite E. replace (phase - len) with (phase + (-1) * len) by ring. apply Z.mod_add. lia.
Qed.

Lemma wrap_up_mod fuel : forall z len r, 2 <= len <= 1073741824 -> -2147483648 <= z < len -> wrap_up fuel (u32 z) 0 len = Ok r -> r = z mod len.
Proof.
  induction fuel as [|fuel IH]; intros * L P E; cbn [wrap_up] in E; rewrite s32_u32 in E by lia; destruct (Z.ltb_spec z 0); try discriminate E;
    try (assert (r = u32 z) as -> by congruence; rewrite u32_id, Z.mod_small by lia; reflexivity).
  rewrite u32_add_l in E. apply IH in E; [|lia|lia]. rewrite E. replace (z + len) with (z + 1 * len) by ring. apply Z.mod_add. lia.
Qed.

Lemma wrap_phase_mod fuel z len : 2 <= len <= 1073741824 -> -600 <= z <= len + 600 -> ~ 0 <= z < len -> 700 <= Z.of_nat fuel ->
  BKUnitWrapSamplePhase fuel (u32 z) 0 len = Ok (z mod len, if z <? 0 then -1 else 1).
Proof.
  intros L B O F. destruct (wrap_phase_ok fuel z len L B O F) as (r & dir & E & R & D). rewrite E. unfold BKUnitWrapSamplePhase in E.
  rewrite chk32_ok in E by lia. cbn [bind] in E. rewrite Z.sub_0_r, s32_u32 in E by lia. destruct D as [[D ->]|(D & -> & _)].
  - destruct (Z.geb_spec z len); [|lia]. rewrite u32_id in E by lia. destruct (wrap_down fuel z len len) as [r0|] eqn:W; [|discriminate E]. cbn [bind] in E. apply wrap_down_mod in W; [|lia|lia].
    assert (r = r0) as -> by congruence. rewrite W. destruct (Z.ltb_spec z 0); [lia|reflexivity].
  - destruct (Z.geb_spec z len); [lia|]. destruct (Z.ltb_spec z 0); [|lia]. destruct (wrap_up fuel (u32 z) 0 len) as [r0|] eqn:W; [|discriminate E]. cbn [bind] in E. apply wrap_up_mod in W; [|lia|lia].
    assert (r = r0) as -> by congruence. rewrite W. reflexivity.
Qed.

(** ** Channels *)

Lemma channels_levels n : forall i u idx frames base,
  sm_frames (un_sample u) = Some (frames, base) -> Forall is_frame frames -> 0 <= i -> i + Z.of_nat n <= 8 ->
  (forall k, i <= k < i + Z.of_nat n -> 0 <= base + idx + (if sm_numChannels (un_sample u) =? 1 then 0 else k) < Z.of_nat (length frames)) ->
  unit_wf u ->
  let fr k := nth (Z.to_nat (base + idx + (if sm_numChannels (un_sample u) =? 1 then 0 else k))) frames 0 in
  exists last d, sample_channels n i u idx = Ok (last, d) /\ length last = 8%nat /\ Forall is_frame last /\ length d = n /\
    (forall k, nth k last 0 = if (Z.to_nat i <=? k)%nat && (k <? Z.to_nat i + n)%nat then level (vol u k) (fr (Z.of_nat k)) else lastp u k) /\
    (forall k, (k < n)%nat -> nth k d 0 = level (vol u (Z.to_nat i + k)) (fr (i + Z.of_nat k)) - lastp u (Z.to_nat i + k)).
Proof.
  induction n as [|n IH]; intros * Ef HF Hi Hn Hb W fr.
  - exists (un_lastPulse u), []. cbn [sample_channels]. pose proof (wf_last u W) as (L & F). split; [reflexivity|]. split; [exact L|]. split; [exact F|]. split; [reflexivity|]. split.
    + intros k. destruct ((Z.to_nat i <=? k)%nat && (k <? Z.to_nat i + 0)%nat) eqn:Q; [lia|reflexivity].
    + intros k K. lia.
  - cbn [sample_channels]. rewrite Ef. pose proof (wf_last u W) as (L & F). pose proof (wf_volume u W) as (LV & FV).
    rewrite (aget_nth _ _ 0) by lia. cbn [bind]. rewrite (aget_nth frames _ 0) by (apply Hb; lia). cbn [bind]. rewrite (aget_nth _ _ 0) by lia. cbn [bind].
    change (nth (Z.to_nat i) (un_volume u) 0) with (vol u (Z.to_nat i)). change (nth (Z.to_nat i) (un_lastPulse u) 0) with (lastp u (Z.to_nat i)).
    fold (fr i). assert (FI : is_frame (fr i)). { unfold fr. rewrite Forall_forall in HF. apply HF, nth_In. specialize (Hb i ltac:(lia)). lia. }
    rewrite pulse_delta_ok; [|apply vol_range; exact W|exact FI|apply lastp_frame; exact W]. cbn [bind]. rewrite aset_ok by lia. cbn [bind].
    set (la := upd (un_lastPulse u) (Z.to_nat i) (level (vol u (Z.to_nat i)) (fr i))).
    assert (FL : is_frame (level (vol u (Z.to_nat i)) (fr i))) by (apply level_frame; [apply vol_range; exact W|exact FI]).
    assert (W' : unit_wf (set_lastPulse u la)). { clear - W L F FL. wf_destruct W. constructor; ucbn; auto. split; [unfold la; rewrite upd_length; exact L|]. apply upd_frames; assumption. }
    destruct (IH (i + 1) (set_lastPulse u la) idx frames base Ef HF ltac:(lia) ltac:(lia)) as (last & d & E & L1 & L2 & L3 & L4 & L5); [intros k K; apply Hb; lia|exact W'|].
    rewrite E. cbn [bind]. eexists last, _. split; [reflexivity|]. split; [exact L1|]. split; [exact L2|]. split; [cbn [length]; rewrite L3; reflexivity|]. split.
    + intros k. rewrite L4. change (vol (set_lastPulse u la) k) with (vol u k). change (sm_numChannels (un_sample (set_lastPulse u la))) with (sm_numChannels (un_sample u)). fold (fr (Z.of_nat k)).
      unfold lastp. change (un_lastPulse (set_lastPulse u la)) with la. destruct (Nat.eq_dec k (Z.to_nat i)) as [->|NK].
      * replace ((Z.to_nat (i + 1) <=? Z.to_nat i)%nat) with false by lia. cbn [andb]. replace ((Z.to_nat i <=? Z.to_nat i)%nat && (Z.to_nat i <? Z.to_nat i + S n)%nat) with true by lia.
        unfold la. rewrite nth_upd_eq by lia. rewrite Z2Nat.id by lia. reflexivity.
      * unfold la. rewrite nth_upd_neq by lia. replace ((Z.to_nat i <=? k)%nat && (k <? Z.to_nat i + S n)%nat) with ((Z.to_nat (i + 1) <=? k)%nat && (k <? Z.to_nat (i + 1) + n)%nat) by lia. reflexivity.
    + intros [|k] K; cbn [nth]; [rewrite Nat.add_0_r, Z.add_0_r; reflexivity|]. rewrite L5 by lia. change (vol (set_lastPulse u la)) with (vol u). change (sm_numChannels (un_sample (set_lastPulse u la))) with (sm_numChannels (un_sample u)).
      replace (Z.to_nat (i + 1) + k)%nat with (Z.to_nat i + S k)%nat by lia. replace (i + 1 + Z.of_nat k) with (i + Z.of_nat (S k)) by lia. fold (fr (i + Z.of_nat (S k))).
      f_equal. unfold lastp. change (un_lastPulse (set_lastPulse u la)) with la. unfold la. rewrite nth_upd_neq by lia. reflexivity.
Qed.

(** ** One step *)

Lemma moved_again u l1 p f s c m l2 p2 f2 s2 c2 m2 :
  moved (set_lastPulse (moved (set_lastPulse u l1) p f s c m) l2) p2 f2 s2 c2 m2 = moved (set_lastPulse u l2) p2 f2 s2 c2 m2.
Proof. reflexivity. Qed.

Lemma step_ok fuel u n last z :
  let len := sm_length (un_sample u) in
  let v := set_lastPulse u last in
  let f := (sm_timeFrac (un_sample u) + sm_period (un_sample u)) mod 1048576 in
  let w := set_phase (set_sm v (s_timeFrac (un_sample u) f)) (u32 z) in
  playing u -> un_ctx u = Some n -> un_mute u = 0 -> length last = 8%nat -> Forall is_frame last ->
  z = ph_phase (un_phase u) + (sm_timeFrac (un_sample u) + sm_period (un_sample u)) / 1048576 -> 700 <= Z.of_nat fuel ->
  let q := advance (mode_of u) len (hold_of u) (pos_of u) in
  exists x h ct,
    (if (z <? 0) || (z >=? len) then BKUnitResetSample fuel w else Ok (w, false)) = Ok (x, h) /\ 0 <= ct < 4294967296 /\ q_halt q = h /\
    (if h then x else sustain_step (un_sustain u && negb (un_release u)) x) = moved v (q_pos q) (q_frac q) (q_speed q) ct (if h then 1 else 0) /\
    0 <= q_pos q < len /\ 0 <= q_frac q < 1048576 /\ Z.abs (q_speed q) = Z.abs (sm_period (un_sample u)).
Proof.
  intros len v f w P CX M L1 L2 Z0 F q. destruct P as [W G L Pl]. pose proof W as W'. wf_destruct W'. pose proof G as G'. sg_destruct G'.
  specialize (Sphase L). fold len in Sphase. assert (FR : 0 <= f < 1048576) by (apply Z.mod_pos_bound; lia).
  pose proof (frac_step (sm_timeFrac (un_sample u)) (sm_period (un_sample u)) Wfrac ltac:(lia)) as [F1 F2]. unfold BK_FINT20_SHIFT in F1, F2. rewrite !shiftr_div in F1, F2 by lia. change (2 ^ 20) with 1048576 in *.
  rewrite (Z.div_small (sm_timeFrac (un_sample u))) in F1, F2 by lia. rewrite Z.sub_0_r in F1, F2.
  assert (HL : forall p s, 0 <= p < len -> 0 <= held_pos (hold_of u) p s < len).
  { intros p s HP. unfold held_pos, hold_of. destruct (un_sustain u) eqn:SU; cbn [andb]; [|exact HP]. specialize (Ssus eq_refl). fold len in Ssus. destruct (negb (un_release u)); [|exact HP].
    destruct (0 <? s); [destruct (_ <=? _)|destruct (p <? _)]; lia. }
  assert (SS : forall p fr s ct, 0 <= p < len -> sustain_step (un_sustain u && negb (un_release u)) (moved v p fr s ct 0) = moved v (held_pos (hold_of u) p s) fr s ct 0).
  { intros p fr s ct HP. unfold sustain_step, held_pos, hold_of. cbv zeta. destruct (un_sustain u) eqn:SU; cbn [andb]; [|reflexivity]. specialize (Ssus eq_refl). fold len in Ssus. destruct (negb (un_release u)); [|reflexivity].
    change (sm_period (un_sample (moved v p fr s ct 0))) with s. change (ph_phase (un_phase (moved v p fr s ct 0))) with p. change (sm_sustainEnd (un_sample (moved v p fr s ct 0))) with (sm_sustainEnd (un_sample u)).
    change (sm_sustainOffset (un_sample (moved v p fr s ct 0))) with (sm_sustainOffset (un_sample u)). rewrite !s32_id by lia. rewrite Z.gtb_ltb, Z.geb_leb. rewrite u32_id by lia.
    destruct (0 <? s); [destruct (_ <=? _)|destruct (p <? _)]; reflexivity. }
  unfold q, advance. change (q_halt (pos_of u)) with (negb (un_mute u =? 0)). rewrite M. cbn [Z.eqb negb]. cbn iota. change (q_pos (pos_of u)) with (ph_phase (un_phase u)). change (q_frac (pos_of u)) with (sm_timeFrac (un_sample u)).
  change (q_speed (pos_of u)) with (sm_period (un_sample u)). cbv zeta. rewrite <- Z0. fold f.
  destruct ((z <? 0) || (z >=? len)) eqn:O.
  2: { replace ((0 <=? z) && (z <? len)) with true by lia. exists w, false, (sm_repeatCount (un_sample u)). split; [reflexivity|]. split; [exact Wrcount|]. split; [reflexivity|].
       cbn [hold_in q_pos q_frac q_speed q_halt]. split; [|split; [apply HL; lia|split; [exact FR|reflexivity]]]. rewrite <- SS by lia. f_equal. unfold w, moved. rewrite u32_id by lia.
       clear - M. destruct u; destruct un_sample, un_phase; cbn in M. subst un_mute. reflexivity. }
  replace ((0 <=? z) && (z <? len)) with false by lia. unfold BKUnitResetSample. cbv zeta. change (sm_callback (un_sample w)) with (sm_callback (un_sample u)). change (sm_repeatMode (un_sample w)) with (sm_repeatMode (un_sample u)).
  change (sm_length (un_sample w)) with len. change (ph_phase (un_phase w)) with (u32 z). change (sm_repeatCount (un_sample w)) with (sm_repeatCount (un_sample u)). change (sm_period (un_sample w)) with (sm_period (un_sample u)).
  assert (LB : 2 <= len <= 1073741824) by (split; [exact L|unfold len; lia]). rewrite (s32_id len) by lia. rewrite wrap_phase_mod; [|exact LB|lia|lia|exact F]. cbn [bind].
  assert (MO : (match sm_callback (un_sample u) with Some _ => s32 (BKUnitCallSampleCallback (sm_callback (un_sample u))) | None => s32 (sm_repeatMode (un_sample u)) end) = mode_of u).
  { unfold mode_of. destruct (sm_callback (un_sample u)); [reflexivity|]. apply s32_id. lia. }
  rewrite MO. set (ct := u32 (sm_repeatCount (un_sample u) + 1)). assert (CT : 0 <= ct < 4294967296) by apply u32_range.
  pose proof (Z.mod_pos_bound z len ltac:(lia)) as MB.
  assert (SG : 0 < sm_period (un_sample u) /\ len <= z \/ sm_period (un_sample u) < 0 /\ z < 0).
  { destruct (Z.lt_ge_cases z 0); [right|left]; (split; [|lia]).
    - apply Z.nle_gt. intros Q. pose proof (Z.div_pos (sm_timeFrac (un_sample u) + sm_period (un_sample u)) 1048576 ltac:(lia) ltac:(lia)). lia.
    - apply Z.nle_gt. intros Q. pose proof (Z.div_lt_upper_bound (sm_timeFrac (un_sample u) + sm_period (un_sample u)) 1048576 1 ltac:(lia) ltac:(lia)). lia. }
  destruct (mode_of u =? BK_REPEAT) eqn:M1.
  { replace ((if z <? 0 then -1 else 1) =? 0) with false by (destruct (z <? 0); reflexivity). rewrite abs32_ok by exact (proj2 Wsper). cbn [bind].
    eexists _, false, ct. split; [reflexivity|]. split; [exact CT|]. split; [reflexivity|]. cbn [hold_in q_pos q_frac q_speed q_halt]. split; [|split; [apply HL; lia|split; [exact FR|reflexivity]]]. rewrite <- SS by lia. f_equal.
    assert (PQ : (if (if z <? 0 then -1 else 1) =? -1 then - Z.abs (sm_period (un_sample u)) else Z.abs (sm_period (un_sample u))) = sm_period (un_sample u)) by (destruct (Z.ltb_spec z 0); cbn [Z.eqb Pos.eqb]; lia).
    rewrite PQ. unfold w, moved, v. clear - M. destruct u; destruct un_sample, un_phase; cbn in M. subst un_mute. reflexivity. }
  destruct (mode_of u =? BK_PALINDROME) eqn:M2.
  { assert (PM : sm_repeatMode (un_sample u) = BK_PALINDROME) by (unfold mode_of in M2; destruct (sm_callback (un_sample u)); [discriminate M2|lia]). specialize (Pl PM). fold len in Pl. specialize (F2 (len - 1) Pl).
    assert (F3 : (sm_timeFrac (un_sample u) + sm_period (un_sample u)) / 1048576 < len) by (apply Z.div_lt_upper_bound; lia).
    replace (- (if z <? 0 then -1 else 1) =? 0) with false by (destruct (z <? 0); reflexivity). rewrite abs32_ok by exact (proj2 Wsper). cbn [bind].
    eexists _, false, ct. split; [reflexivity|]. split; [exact CT|]. split; [reflexivity|]. cbn [hold_in q_pos q_frac q_speed q_halt].
    assert (PR : 0 <= (if z <? 0 then - z else 2 * len - 1 - z) < len) by (destruct (Z.ltb_spec z 0); lia).
    split; [|split; [apply HL; exact PR|split; [exact FR|lia]]]. rewrite <- SS by exact PR. f_equal.
    assert (PP : (if (if z <? 0 then -1 else 1) =? 1 then u32 (len - z mod len - 1) else if (if z <? 0 then -1 else 1) =? -1 then u32 (len - z mod len) else z mod len) = (if z <? 0 then - z else 2 * len - 1 - z)).
    { destruct (Z.ltb_spec z 0); cbn [Z.eqb Pos.eqb].
      - assert (z mod len = z + len) as -> by (symmetry; apply Z.mod_unique with (-1); lia). rewrite u32_id by lia. ring.
      - assert (z mod len = z - len) as -> by (symmetry; apply Z.mod_unique with 1; lia). rewrite u32_id by lia. ring. }
    assert (PQ : (if - (if z <? 0 then -1 else 1) =? -1 then - Z.abs (sm_period (un_sample u)) else Z.abs (sm_period (un_sample u))) = - sm_period (un_sample u)) by (destruct (Z.ltb_spec z 0); cbn [Z.eqb Pos.eqb Z.opp]; lia).
    rewrite PP, PQ. unfold w, moved, v. clear - M. destruct u; destruct un_sample, un_phase; cbn in M. subst un_mute. reflexivity. }
  cbn [Z.eqb]. eexists _, true, ct. split; [reflexivity|]. split; [exact CT|]. split; [reflexivity|]. cbn [q_pos q_frac q_speed q_halt]. split; [|split; [exact MB|split; [exact FR|reflexivity]]].
  unfold w, moved, v. clear. destruct u; destruct un_sample, un_phase. reflexivity.
Qed.

(** ** The loop *)

Lemma nth_zip t d : forall l k, length d = length l -> (k < length l)%nat -> nth k (zip_pulses t d l) [] = (t, nth k d 0) :: nth k l [].
Proof. induction d as [|v d IH]; intros [|p l] [|k] H K; cbn [zip_pulses nth length] in *; try lia; [reflexivity|]. apply IH; lia. Qed.

Lemma nth_nils k n : nth k (repeat ([] : list (Z * Z)) n) [] = [].
Proof. revert k. induction n as [|n IH]; intros [|k]; cbn [repeat nth]; auto. Qed.

Lemma loop_play fuel : forall u n time t,
  playing u -> un_ctx u = Some n -> un_mute u = 0 -> 0 <= time -> time + 1048576 < 2147483648 \/ t <= time -> time < 2147483648 -> 0 <= t -> t + 1048576 < 2147483648 -> t - time + 900 <= Z.of_nat fuel \/ t <= time ->
  let m := Z.to_nat (before time 1048576 t) in
  let q := reach m (mode_of u) (sm_length (un_sample u)) (hold_of u) (pos_of u) in
  exists u' t' l last ct, sample_loop fuel u n (un_sustain u && negb (un_release u)) time t = Ok (u', t', l) /\ playing u' /\
    u' = moved (set_lastPulse u last) (q_pos q) (q_frac q) (q_speed q) ct (if q_halt q then 1 else 0) /\
    (q_halt q = false -> t' = time + Z.of_nat m * 1048576) /\ 0 <= t' < 2147483648 /\ Z.abs (q_speed q) = Z.abs (sm_period (un_sample u)) /\ length l = Z.to_nat n /\
    forall k, (k < Z.to_nat n)%nat ->
      let raw := play m (mode_of u) (sm_length (un_sample u)) (hold_of u) (pos_of u) time (frame_at u k) in
      nth k l [] = chan_deltas (vol u k) (lastp u k) raw /\ nth k last 0 = last_level (vol u k) (lastp u k) raw.
Proof.
  induction fuel as [|fuel IH]; intros u n time t P CX M T0 T1 T2 E0 E1 F m q.
  - assert (B : before time 1048576 t = 0) by (unfold before; replace (time <? t) with false by lia; reflexivity).
    unfold q, m. rewrite B. cbn [Z.to_nat reach play]. cbn [sample_loop]. rewrite u32_id by lia. replace (time <? t) with false by lia.
    eexists u, time, _, (un_lastPulse u), (sm_repeatCount (un_sample u)). split; [reflexivity|]. split; [exact P|]. split.
    { cbn [pos_of q_pos q_frac q_speed q_halt]. rewrite M. cbn [Z.eqb negb]. clear - M. destruct u; destruct un_sample, un_phase; cbn in M; subst un_mute; reflexivity. }
    split; [intros _; cbn; lia|]. split; [lia|]. split; [reflexivity|]. split; [apply repeat_length|]. intros k K. split; [apply nth_nils|reflexivity].
  - cbn [sample_loop]. rewrite u32_id by lia. destruct (time <? t) eqn:TT.
    2: { assert (B : before time 1048576 t = 0) by (unfold before; rewrite TT; reflexivity).
         unfold q, m. rewrite B. cbn [Z.to_nat reach play].
         eexists u, time, _, (un_lastPulse u), (sm_repeatCount (un_sample u)). split; [reflexivity|]. split; [exact P|]. split.
         { cbn [pos_of q_pos q_frac q_speed q_halt]. rewrite M. cbn [Z.eqb negb]. clear - M. destruct u; destruct un_sample, un_phase; cbn in M; subst un_mute; reflexivity. }
         split; [intros _; cbn; lia|]. split; [lia|]. split; [reflexivity|]. split; [apply repeat_length|]. intros k K. split; [apply nth_nils|reflexivity]. }
    pose proof P as P'. destruct P' as [W G L Pl]. pose proof W as W'. wf_destruct W'. pose proof G as G'. sg_destruct G'. destruct Sframes as (frames & base & Ef & Hb0 & Hb1 & Hb2 & HF).
    assert (Hn : 1 <= n <= 8) by (apply Wctx; exact CX). specialize (Sphase L).
    pose proof (idx_ok _ _ _ (proj1 Wphase) Sphase (proj1 Schan)) as Hidx. cbv zeta.
    set (ph := ph_phase (un_phase u)) in *. set (nc := sm_numChannels (un_sample u)) in *. set (len := sm_length (un_sample u)) in *.
    rewrite (u32_id (ph * nc)) by (clear - Hidx Hb0 Hb1 Hb2 Schan; clearbody nc len ph; lia).
    destruct (channels_levels (Z.to_nat n) 0 u (ph * nc) frames base Ef HF) as (last & d & -> & L1 & L2 & L3 & L4 & L5); [lia|lia| |exact W|].
    { intros k Hk. fold nc. rewrite Z2Nat.id in Hk by lia. destruct (nc =? 1) eqn:Enc; [lia|]. destruct (Sctx n CX) as [Hs|Hs]; lia. }
    cbn [bind]. rewrite chk32_ok by lia. cbn [bind]. unfold sample_advance. cbv zeta. change (un_sample (set_lastPulse u last)) with (un_sample u). change (un_phase (set_lastPulse u last)) with (un_phase u). fold ph.
    rewrite chk32_ok by lia. cbn [bind]. unfold BK_FINT20_SHIFT, BK_FINT20_FRAC. rewrite !shiftr_div by lia. change (2 ^ 20) with 1048576. rewrite land_frac. rewrite (Z.div_small (sm_timeFrac (un_sample u))) by lia. rewrite Z.sub_0_r.
    pose proof (step_ok (S fuel) u n last _ P CX M L1 L2 eq_refl ltac:(lia)) as X. cbv zeta in X. fold ph in X. fold len in X.
    set (z := ph + (sm_timeFrac (un_sample u) + sm_period (un_sample u)) / 1048576) in *.
    pose proof (frac_step (sm_timeFrac (un_sample u)) (sm_period (un_sample u)) Wfrac ltac:(lia)) as [F1 _]. unfold BK_FINT20_SHIFT in F1. rewrite !shiftr_div in F1 by lia. change (2 ^ 20) with 1048576 in *. rewrite (Z.div_small (sm_timeFrac (un_sample u))) in F1 by lia.
    match goal with |- context [set_phase (set_sm (set_lastPulse u last) ?s) (u32 z)] => set (w := set_phase (set_sm (set_lastPulse u last) s) (u32 z)) in * end.
    change (ph_phase (un_phase w)) with (u32 z). change (sm_length (un_sample w)) with len. rewrite s32_u32 by lia. rewrite (s32_id len) by lia.
    set (q1 := advance (mode_of u) len (hold_of u) (pos_of u)) in *.
    destruct X as (x & h & ct & -> & CT & H & XE & QP & QF & QS). cbn [bind].
    assert (QH : q_halt (pos_of u) = false) by (unfold pos_of; cbn [q_halt]; rewrite M; reflexivity).
    pose proof (before_step time 1048576 t ltac:(lia) ltac:(lia)) as BS. pose proof (before_bounds (time + 1048576) 1048576 t ltac:(lia)) as [B0 _].
    assert (ME : m = S (Z.to_nat (before (time + 1048576) 1048576 t))) by (unfold m; rewrite BS; lia).
    assert (PX : playing (moved (set_lastPulse u last) (q_pos q1) (q_frac q1) (q_speed q1) ct (if h then 1 else 0))).
    { apply moved_playing; try assumption; [apply last_playing; assumption|destruct h; auto]. }
    assert (FA : forall k, (k < Z.to_nat n)%nat -> nth k d 0 = level (vol u k) (frame_at u k ph) - lastp u k /\ nth k last 0 = level (vol u k) (frame_at u k ph)).
    { intros k K. split.
      - rewrite L5 by exact K. cbn [Z.to_nat Nat.add]. unfold frame_at. rewrite Ef. fold nc. rewrite Z.add_0_l. reflexivity.
      - rewrite L4. replace ((Z.to_nat 0 <=? k)%nat && (k <? Z.to_nat 0 + Z.to_nat n)%nat) with true by (cbn [Z.to_nat Nat.leb Nat.add andb]; lia). unfold frame_at. rewrite Ef. fold nc. reflexivity. }
    unfold q. rewrite ME. cbn [reach play]. rewrite QH. fold q1. destruct h.
    + eexists x, time, _, last, ct. split; [reflexivity|]. rewrite XE. split; [exact PX|]. rewrite reach_halted by exact H. rewrite H. split; [reflexivity|]. split; [discriminate|]. split; [lia|]. split; [exact QS|].
      split; [rewrite zip_pulses_length; apply repeat_length|]. intros k K. rewrite nth_zip by (rewrite repeat_length; lia). rewrite nth_nils. rewrite play_halted by exact H. destruct (FA k K) as (FA1 & FA2).
      cbn [chan_deltas last_level fold_left snd pos_of q_frac q_pos]. fold ph. split; [|exact FA2]. rewrite u32_id by lia. rewrite FA1. reflexivity.
    + rewrite chk32_ok by (unfold BK_FINT20_UNIT; lia). cbn [bind]. rewrite XE. set (y := moved (set_lastPulse u last) (q_pos q1) (q_frac q1) (q_speed q1) ct 0) in *. change BK_FINT20_UNIT with 1048576.
      assert (PY : pos_of y = q1) by (unfold pos_of, y, moved; ucbn; cbn [Z.eqb negb]; rewrite <- H; destruct q1; reflexivity).
      assert (AG : forall l2 p2 f2 s2 c2 m2, moved (set_lastPulse y l2) p2 f2 s2 c2 m2 = moved (set_lastPulse u l2) p2 f2 s2 c2 m2) by (intros; apply moved_again).
      assert (LP : forall k, (k < Z.to_nat n)%nat -> lastp y k = level (vol u k) (frame_at u k ph)) by (intros k K; apply (FA k K)).
      assert (YV : vol y = vol u) by reflexivity. assert (YF : frame_at y = frame_at u) by reflexivity. assert (YM : mode_of y = mode_of u) by reflexivity. assert (YH : hold_of y = hold_of u) by reflexivity.
      assert (YL : sm_length (un_sample y) = len) by reflexivity. assert (YS : un_sustain y = un_sustain u) by reflexivity. assert (YR : un_release y = un_release u) by reflexivity. assert (YC : un_ctx y = un_ctx u) by reflexivity. assert (YU : un_mute y = 0) by reflexivity.
      assert (YP : sm_period (un_sample y) = q_speed q1) by reflexivity.
      clearbody y. destruct (IH y n (time + 1048576) t PX ltac:(congruence) YU) as (u' & t' & l & last' & ct' & E & PU & U & TM & TR & AB & LL & NT); [lia|lia|lia|lia|lia|lia|].
      rewrite YS, YR in E. rewrite YM, YH, YL, PY in *. rewrite E. cbn [bind]. clear E IH. eexists u', t', _, last', ct'. split; [reflexivity|]. split; [exact PU|]. split; [rewrite U; apply AG|]. split; [intros Q; specialize (TM Q); rewrite TM; lia|].
      split; [exact TR|]. split; [rewrite AB, YP; exact QS|]. split; [rewrite zip_pulses_length; exact LL|]. intros k K. rewrite nth_zip by (clear - L3 LL K; lia). destruct (NT k K) as (N1 & N2). destruct (FA k K) as (FA1 & FA2).
      rewrite YV, YF, (LP k K) in N1, N2. cbn [chan_deltas last_level fold_left snd pos_of q_frac q_pos]. fold ph. rewrite u32_id by (clear - Wfrac T0 TT E1; lia). rewrite FA1, N1. split; [reflexivity|exact N2].
Qed.

(** ** Runs *)

(** A unit which plays a sample. *)
Definition plays_sample (u : bkunit) : Prop :=
  un_waveform u = BK_SAMPLE /\ un_period u <> 0 /\ 2 <= sm_length (un_sample u) /\
  (sm_repeatMode (un_sample u) = BK_PALINDROME -> Z.abs (sm_period (un_sample u)) <= (sm_length (un_sample u) - 1) * 1048576).

(** What playing does not change. *)
Record same_setup (u u' : bkunit) : Prop := mk_same_setup {
  ss_ctx : un_ctx u' = un_ctx u; ss_vol : un_volume u' = un_volume u; ss_mode : mode_of u' = mode_of u; ss_hold : hold_of u' = hold_of u;
  ss_len : sm_length (un_sample u') = sm_length (un_sample u); ss_frame : frame_at u' = frame_at u; ss_wave : un_waveform u' = un_waveform u; ss_per : un_period u' = un_period u;
  ss_rep : sm_repeatMode (un_sample u') = sm_repeatMode (un_sample u); ss_speed : Z.abs (sm_period (un_sample u')) = Z.abs (sm_period (un_sample u)) }.

Lemma same_sample u u' : same_setup u u' -> plays_sample u -> plays_sample u'.
Proof. intros [A B C D E F G H I J] (S1 & S2 & S3 & S4). unfold plays_sample. rewrite G, H, E, I, J. auto. Qed.

Lemma run_play fuel u e n : unit_safe u -> plays_sample u -> un_ctx u = Some n -> 0 <= e -> e + 1048576 < 2147483648 -> e + 1000 <= Z.of_nat fuel ->
  let m := Z.to_nat (before (un_time u) 1048576 e) in
  let q := reach m (mode_of u) (sm_length (un_sample u)) (hold_of u) (pos_of u) in
  exists u' l, BKUnitRun fuel u e = Ok (u', l) /\ unit_safe u' /\ same_setup u u' /\ pos_of u' = q /\ e <= un_time u' /\ length l = Z.to_nat n /\
    (q_halt q = false -> un_time u' = un_time u + Z.of_nat m * 1048576) /\
    forall k, (k < Z.to_nat n)%nat ->
      let raw := play m (mode_of u) (sm_length (un_sample u)) (hold_of u) (pos_of u) (un_time u) (frame_at u k) in
      nth k l [] = chan_deltas (vol u k) (lastp u k) raw /\ lastp u' k = last_level (vol u k) (lastp u k) raw.
Proof.
  intros S T CX E0 E1 F m q. pose proof T as (TW & TP & TL & TPL). pose proof (wf_time u (proj1 S)) as WT. pose proof (wf_period u (proj1 S)) as WP.
  destruct S as (W & TT & SG). specialize (SG TW). pose proof (safe_playing u W SG TL TPL) as P.
  unfold BKUnitRun. rewrite CX. cbv zeta. replace (un_period u =? 0) with false by lia. rewrite TW. change ((BK_SQUARE <=? BK_SAMPLE) && (BK_SAMPLE <=? BK_CUSTOM)) with false. change (BK_SAMPLE =? BK_SAMPLE) with true. cbn iota. unfold BKUnitRunSample.
  assert (NW : forall v, un_waveform v = BK_SAMPLE -> unit_wf v -> sample_good v -> unit_safe v).
  { intros v V1 V2 V3. split; [exact V2|]. split; [|intros _; exact V3]. intros HW. exfalso. rewrite V1 in HW. unfold BK_SAMPLE, BK_CUSTOM in HW. lia. }
  destruct (un_mute u =? 0) eqn:M; cbn [negb].
  2: { cbn [bind]. rewrite Z.ltb_irrefl. eexists _, _. split; [reflexivity|]. assert (H : q_halt (pos_of u) = true) by (unfold pos_of; cbn [q_halt]; rewrite M; reflexivity). unfold q. rewrite reach_halted by exact H.
       split; [apply NW; [exact TW|apply wf_time_set; [exact W|lia]|apply good_time; exact SG]|]. split; [constructor; reflexivity|]. split; [reflexivity|]. split; [cbn [un_time set_time]; lia|]. split; [apply repeat_length|]. split; [congruence|].
       intros k K. rewrite play_halted by exact H. split; [apply nth_nils|reflexivity]. }
  pose proof (wf_range u W) as [R1 R2]. rewrite (s32_id (sm_end _)), (s32_id (sm_offset _)) by lia. rewrite chk32_ok by lia. cbn [bind].
  assert (Ha : abs32 (sm_end (un_sample u) - sm_offset (un_sample u)) = Ok (sm_length (un_sample u))).
  { rewrite (sg_length u SG). unfold abs32. destruct (Z.ltb_spec (sm_end (un_sample u) - sm_offset (un_sample u)) 0).
    - rewrite chk32_ok by lia. f_equal. lia.
    - f_equal. lia. }
  rewrite Ha. cbn [bind]. replace (sm_length (un_sample u) <? 2) with false by lia.
  assert (M0 : un_mute u = 0) by lia.
  destruct (Z.lt_ge_cases (un_time u) e) as [TE|TE].
  - rewrite (s32_id (un_time u)) by lia.
    destruct (loop_play fuel u n (un_time u) e P CX M0) as (u1 & t1 & l & last & ct & E & P1 & U & TM & TR & AB & LL & NT); [lia|lia|lia|lia|lia|lia|]. fold m in U, TM, AB, NT. fold q in U, TM, AB.
    rewrite E. cbn [bind]. rewrite u32_id by lia. eexists _, l. split; [reflexivity|].
    set (tt := if t1 <? e then e else t1). assert (TTR : 0 <= tt < 2147483648 /\ e <= tt) by (unfold tt; destruct (Z.ltb_spec t1 e); lia).
    split; [apply NW; [rewrite U; exact TW|apply wf_time_set; [apply P1|lia]|apply good_time; apply P1]|].
    split; [rewrite U; constructor; try reflexivity; exact AB|]. split; [rewrite U; unfold pos_of, moved; ucbn; clear; destruct q as [a b c []]; reflexivity|].
    split; [cbn [un_time set_time]; lia|]. split; [exact LL|]. split.
    + intros H. specialize (TM H). cbn [un_time set_time]. pose proof (before_bounds (un_time u) 1048576 e ltac:(lia)) as [B0 B1]. specialize (B1 TE). unfold tt. unfold m in *. rewrite Z2Nat.id in * by lia. replace (t1 <? e) with false by lia. exact TM.
    + intros k K. destruct (NT k K) as (N1 & N2). split; [exact N1|]. rewrite U. exact N2.
  - assert (B : before (un_time u) 1048576 e = 0) by (unfold before; replace (un_time u <? e) with false by lia; reflexivity).
    assert (LP : sample_loop fuel u n (un_sustain u && negb (un_release u)) (s32 (un_time u)) e = Ok (u, s32 (un_time u), repeat [] (Z.to_nat n))).
    { destruct fuel; cbn [sample_loop]; rewrite u32_s32 by lia; replace (un_time u <? e) with false by lia; reflexivity. }
    rewrite LP. cbn [bind]. rewrite u32_s32 by lia. replace (un_time u <? e) with false by lia. eexists _, _. split; [reflexivity|]. unfold q, m. rewrite B. cbn [Z.to_nat reach play].
    split; [apply NW; [exact TW|apply wf_time_set; [exact W|lia]|apply good_time; exact SG]|]. split; [constructor; reflexivity|]. split; [reflexivity|]. split; [cbn [un_time set_time]; lia|]. split; [apply repeat_length|]. split; [intros _; cbn [un_time set_time Z.of_nat]; lia|].
    intros k K. split; [apply nth_nils|reflexivity].
Qed.

Lemma last_level_shift now v mode len hold g n : forall last s t, last_level v last (play n mode len hold s t g) = last_level v last (play n mode len hold s (now + t) g).
Proof.
  unfold last_level. induction n as [|n IH]; intros last s t; cbn [play]; [reflexivity|]. destruct (q_halt s); [reflexivity|]. cbn [fold_left snd]. rewrite IH. replace (now + (t + 1048576)) with (now + t + 1048576) by ring. reflexivity.
Qed.

Lemma deltas_shift now v l : forall last, map (fun tp => (now + fst tp, snd tp)) (chan_deltas v last l) = chan_deltas v last (map (fun tp => (now + fst tp, snd tp)) l).
Proof. induction l as [|[t p] l IH]; intros last; cbn [chan_deltas map fst snd]; [reflexivity|]. rewrite IH. reflexivity. Qed.

Lemma rounds_play fuel c n rs : rounds_good fuel rs -> (c < Z.to_nat n)%nat -> forall u now h, unit_safe u -> plays_sample u -> un_ctx u = Some n -> h <= now + un_time u \/ q_halt (pos_of u) = true ->
  let m := Z.to_nat (before (now + un_time u) 1048576 (horizon now h rs)) in
  exists u', rounds fuel u c now rs = Ok (u', chan_deltas (vol u c) (lastp u c) (play m (mode_of u) (sm_length (un_sample u)) (hold_of u) (pos_of u) (now + un_time u) (frame_at u c))) /\
    same_setup u u' /\ pos_of u' = reach m (mode_of u) (sm_length (un_sample u)) (hold_of u) (pos_of u).
Proof.
  intros G CN. induction G as [|[e d] rs (D & E1 & F) G IH]; intros u now h S T CX H; cbn [rounds horizon]; cbv zeta.
  - exists u. destruct H as [H|H].
    + assert (before (now + un_time u) 1048576 h = 0) as -> by (unfold before; replace (now + un_time u <? h) with false by lia; reflexivity). split; [reflexivity|]. split; [constructor; reflexivity|reflexivity].
    + rewrite play_halted, reach_halted by exact H. split; [reflexivity|]. split; [constructor; reflexivity|reflexivity].
  - cbn [fst snd] in *. destruct (run_play fuel u e n S T CX ltac:(lia) E1 F) as (u1 & l & -> & S1 & Y1 & Q1 & TE & LL & TM & NT). cbn [bind]. destruct (NT c CN) as (N1 & N2). clear NT.
    pose proof (wf_time u1 (proj1 S1)) as WT1. set (m := before (un_time u) 1048576 e) in *. pose proof (before_bounds (un_time u) 1048576 e ltac:(lia)) as [M0 M1]. fold m in M0, M1.
    assert (TU : un_time (BKUnitEnd u1 d) = un_time u1 - d) by (unfold BKUnitEnd; cbn [un_time set_time]; apply u32_id; lia).
    destruct (IH (BKUnitEnd u1 d) (now + d) (Z.max h (now + e))) as (u2 & E2 & Y2 & Q2).
    + apply end_safe. exact S1.
    + apply (same_sample _ _ Y1 T).
    + change (un_ctx u1 = Some n). rewrite (ss_ctx _ _ Y1). exact CX.
    + change (pos_of (BKUnitEnd u1 d)) with (pos_of u1). rewrite Q1. destruct (q_halt (reach (Z.to_nat m) (mode_of u) (sm_length (un_sample u)) (hold_of u) (pos_of u))) eqn:QH; [right; reflexivity|left]. specialize (TM eq_refl). destruct H as [H|H]; [rewrite TU; lia|].
      rewrite reach_halted in QH by exact H. congruence.
    + rewrite E2. cbn [bind]. exists u2. rewrite TU in *. replace (now + d + (un_time u1 - d)) with (now + un_time u1) in * by ring.
      change (vol (BKUnitEnd u1 d) c) with (vol u1 c) in *. change (lastp (BKUnitEnd u1 d) c) with (lastp u1 c) in *. change (mode_of (BKUnitEnd u1 d)) with (mode_of u1) in *. change (hold_of (BKUnitEnd u1 d)) with (hold_of u1) in *.
      change (sm_length (un_sample (BKUnitEnd u1 d))) with (sm_length (un_sample u1)) in *. change (pos_of (BKUnitEnd u1 d)) with (pos_of u1) in *. change (frame_at (BKUnitEnd u1 d)) with (frame_at u1) in *.
      set (hz := horizon (now + d) (Z.max h (now + e)) rs) in *. pose proof (horizon_ge rs (now + d) (Z.max h (now + e))) as HG. fold hz in HG.
      assert (VV : vol u1 c = vol u c) by (unfold vol; rewrite (ss_vol _ _ Y1); reflexivity). rewrite VV, (ss_mode _ _ Y1), (ss_hold _ _ Y1), (ss_len _ _ Y1), (ss_frame _ _ Y1), Q1, N2 in *.
      assert (MS : m = before (now + un_time u) 1048576 (now + e)).
      { unfold m, before. replace (now + un_time u <? now + e) with (un_time u <? e) by lia. replace (now + e - (now + un_time u)) with (e - un_time u) by ring. reflexivity. }
      pose proof (before_split (now + un_time u) 1048576 (now + e) hz ltac:(lia) ltac:(lia)) as BS. rewrite <- MS in BS. rewrite <- BS.
      pose proof (before_bounds (now + un_time u + m * 1048576) 1048576 hz ltac:(lia)) as [B0 _]. rewrite Z2Nat.inj_add by lia. rewrite play_app, reach_add.
      set (q := reach (Z.to_nat m) (mode_of u) (sm_length (un_sample u)) (hold_of u) (pos_of u)) in *.
      assert (YE : same_setup u u2).
      { destruct Y1 as [A1 A2 A3 A4 A5 A6 A7 A8 A9 A0], Y2 as [C1 C2 C3 C4 C5 C6 C7 C8 C9 C0]. constructor; etransitivity; try eassumption. }
      rewrite N1, deltas_shift, play_shift. rewrite chan_deltas_app. rewrite (last_level_shift now). destruct (q_halt q) eqn:QH.
      * rewrite !(play_halted _ _ _ _ q) by exact QH. rewrite Q2. rewrite !(reach_halted _ _ _ _ q) by exact QH. split; [reflexivity|]. split; [exact YE|reflexivity].
      * specialize (TM eq_refl). rewrite Z2Nat.id in * by lia. assert (TQ : now + un_time u1 = now + un_time u + m * 1048576) by lia. rewrite Q2, TQ. split; [reflexivity|]. split; [exact YE|reflexivity].
Qed.

(** ** Hearing the frames *)

Lemma advance_frac_range mode len hold s : 0 <= q_frac s < 1048576 -> 0 <= q_frac (advance mode len hold s) < 1048576.
Proof.
  intros F. unfold advance. destruct (q_halt s); [exact F|]. cbv zeta. pose proof (Z.mod_pos_bound (q_frac s + q_speed s) 1048576 ltac:(lia)).
  destruct (_ && _); [assumption|]. destruct (mode =? BK_REPEAT); [assumption|]. destruct (mode =? BK_PALINDROME); assumption.
Qed.

Lemma reach_frac_range mode len hold n : forall s, 0 <= q_frac s < 1048576 -> 0 <= q_frac (reach n mode len hold s) < 1048576.
Proof. induction n as [|n IH]; intros s F; cbn [reach]; [exact F|]. apply IH, advance_frac_range, F. Qed.

Lemma heard_early v mode len hold g n : forall last s t x, 0 <= q_frac s < 1048576 -> x < t + q_frac s -> heard (chan_deltas v last (play n mode len hold s t g)) x = 0.
Proof.
  induction n as [|n IH]; intros last s t x F X; cbn [play]; [reflexivity|]. destruct (q_halt s); [reflexivity|]. cbn [chan_deltas]. rewrite heard_cons. replace (t + q_frac s <=? x) with false by lia.
  rewrite IH; [reflexivity|apply advance_frac_range; exact F|]. pose proof (advance_frac_range mode len hold s F). lia.
Qed.

(** After the pulse of step [j] the level is the one of its frame, until the pulse of the next step. *)
Lemma heard_play v mode len hold g n : forall j last s t x, 0 <= q_frac s < 1048576 -> (j < n)%nat -> q_halt (reach j mode len hold s) = false ->
  t + Z.of_nat j * 1048576 + q_frac (reach j mode len hold s) <= x ->
  ((S j < n)%nat -> q_halt (reach (S j) mode len hold s) = false -> x < t + Z.of_nat (S j) * 1048576 + q_frac (reach (S j) mode len hold s)) ->
  last + heard (chan_deltas v last (play n mode len hold s t g)) x = level v (g (q_pos (reach j mode len hold s))).
Proof.
  induction n as [|n IH]; intros j last s t x F J H X Y; [lia|]. cbn [play].
  assert (HS : q_halt s = false). { destruct (q_halt s) eqn:Q; [|reflexivity]. rewrite reach_halted in H by exact Q. congruence. }
  rewrite HS. cbn [chan_deltas]. rewrite heard_cons. pose proof (reach_frac_range mode len hold j s F) as RF. pose proof (advance_frac_range mode len hold s F) as AF. destruct j as [|j].
  - cbn [reach] in *. replace (t + q_frac s <=? x) with true by lia.
    destruct n as [|n]; [cbn [play chan_deltas]; change (heard [] x) with 0; lia|]. destruct (q_halt (advance mode len hold s)) eqn:QA.
    + rewrite play_halted by exact QA. cbn [chan_deltas]. change (heard [] x) with 0. lia.
    + specialize (Y ltac:(lia) eq_refl). rewrite heard_early; [lia|exact AF|lia].
  - replace (t + q_frac s <=? x) with true by lia. change (reach (S j) mode len hold s) with (reach j mode len hold (advance mode len hold s)) in *.
    specialize (IH j (level v (g (q_pos s))) (advance mode len hold s) (t + 1048576) x AF ltac:(lia) H ltac:(lia)). rewrite <- IH; [lia|].
    intros J1 H1. specialize (Y ltac:(lia) H1). cbn [reach] in *. lia.
Qed.

(** Pulses are only at the times of the steps. *)
Lemma play_times v mode len hold g n : forall last s t, Forall (fun tp => exists j, (j < n)%nat /\ q_halt (reach j mode len hold s) = false /\ fst tp = t + Z.of_nat j * 1048576 + q_frac (reach j mode len hold s)) (chan_deltas v last (play n mode len hold s t g)).
Proof.
  induction n as [|n IH]; intros last s t; cbn [play]; [constructor|]. destruct (q_halt s) eqn:H; [constructor|]. cbn [chan_deltas]. constructor.
  - exists O. split; [lia|]. split; [exact H|]. cbn [reach fst]. lia.
  - eapply Forall_impl; [|apply IH]. intros tp (j & J & Q & E). exists (S j). split; [lia|]. split; [exact Q|]. cbn [reach]. lia.
Qed.

(** ** The positions *)

Lemma raw_next s z : q_halt s = false -> z = q_pos s + (q_frac s + q_speed s) / 1048576 -> forall p j,
  raw_pos (mk_spos p ((q_frac s + q_speed s) mod 1048576) (q_speed s) false) j = p - z + raw_pos s (j + 1) /\
  raw_frac (mk_spos p ((q_frac s + q_speed s) mod 1048576) (q_speed s) false) j = raw_frac s (j + 1).
Proof.
  intros H Z0 p j. unfold raw_pos, raw_frac. cbn [q_pos q_frac q_speed]. destruct (div_next (q_frac s) (q_speed s) j) as (D1 & D2). replace (j + 1) with (1 + j) by ring. rewrite D1, D2. split; [lia|reflexivity].
Qed.

Lemma reach_S mode len hold n : forall s, reach (S n) mode len hold s = advance mode len hold (reach n mode len hold s).
Proof. intros s. replace (S n) with (n + 1)%nat by lia. rewrite reach_add. reflexivity. Qed.

Lemma raw_step s j : raw_pos s (j + 1) = raw_pos s j + (raw_frac s j + q_speed s) / 1048576 /\ raw_frac s (j + 1) = (raw_frac s j + q_speed s) mod 1048576.
Proof.
  unfold raw_pos, raw_frac. pose proof (Z.div_mod (q_frac s + j * q_speed s) 1048576 ltac:(lia)) as D. set (a := (q_frac s + j * q_speed s) / 1048576) in *. set (r := (q_frac s + j * q_speed s) mod 1048576) in *.
  replace (q_frac s + (j + 1) * q_speed s) with (r + q_speed s + a * 1048576) by lia. rewrite Z.div_add, Z.mod_add by lia. split; [ring|reflexivity].
Qed.

Lemma raw_0 s : 0 <= q_frac s < 1048576 -> raw_pos s 0 = q_pos s /\ raw_frac s 0 = q_frac s.
Proof. intros F. unfold raw_pos, raw_frac. rewrite Z.mul_0_l, Z.add_0_r, Z.div_small, Z.mod_small by lia. lia. Qed.

Lemma reach_repeat len s : 0 < len -> q_halt s = false -> 0 <= q_pos s < len -> 0 <= q_frac s < 1048576 -> forall n,
  reach n BK_REPEAT len None s = mk_spos (raw_pos s (Z.of_nat n) mod len) (raw_frac s (Z.of_nat n)) (q_speed s) false.
Proof.
  intros L H P F. induction n as [|n IH].
  - destruct (raw_0 s F) as (R1 & R2). cbn [reach Z.of_nat]. rewrite R1, R2, Z.mod_small by lia. rewrite <- H. destruct s; reflexivity.
  - rewrite reach_S, IH. unfold advance. cbn [q_halt q_pos q_frac q_speed]. cbv zeta. change (BK_REPEAT =? BK_REPEAT) with true. cbn iota.
    destruct (raw_step s (Z.of_nat n)) as (R1 & R2). replace (Z.of_nat (S n)) with (Z.of_nat n + 1) by lia. rewrite R1, R2.
    set (z := raw_pos s (Z.of_nat n) mod len + (raw_frac s (Z.of_nat n) + q_speed s) / 1048576). assert (ZM : z mod len = (raw_pos s (Z.of_nat n) + (raw_frac s (Z.of_nat n) + q_speed s) / 1048576) mod len) by (unfold z; apply Zplus_mod_idemp_l).
    unfold hold_in, held_pos. cbn [q_pos q_frac q_speed q_halt]. rewrite <- ZM. destruct ((0 <=? z) && (z <? len)) eqn:O; [|reflexivity]. rewrite (Z.mod_small z) by lia. reflexivity.
Qed.

Lemma raw_between s i j : 0 <= i <= j -> forall lo hi, lo <= raw_pos s 0 < hi -> lo <= raw_pos s j < hi -> lo <= raw_pos s i < hi.
Proof.
  intros I lo hi A B. unfold raw_pos in *. destruct (Z.le_ge_cases 0 (q_speed s)) as [P|P].
  - pose proof (Z.div_le_mono (q_frac s + 0 * q_speed s) (q_frac s + i * q_speed s) 1048576 ltac:(lia) ltac:(nia)). pose proof (Z.div_le_mono (q_frac s + i * q_speed s) (q_frac s + j * q_speed s) 1048576 ltac:(lia) ltac:(nia)). lia.
  - pose proof (Z.div_le_mono (q_frac s + i * q_speed s) (q_frac s + 0 * q_speed s) 1048576 ltac:(lia) ltac:(nia)). pose proof (Z.div_le_mono (q_frac s + j * q_speed s) (q_frac s + i * q_speed s) 1048576 ltac:(lia) ltac:(nia)). lia.
Qed.

Lemma reach_once mode len s : q_halt s = false -> 0 <= q_pos s < len -> 0 <= q_frac s < 1048576 -> forall n, 0 <= raw_pos s (Z.of_nat n) < len ->
  reach n mode len None s = mk_spos (raw_pos s (Z.of_nat n)) (raw_frac s (Z.of_nat n)) (q_speed s) false.
Proof.
  intros H P F. destruct (raw_0 s F) as (R1 & R2). induction n as [|n IH]; intros B.
  - cbn [reach Z.of_nat]. rewrite R1, R2. rewrite <- H. destruct s; reflexivity.
  - rewrite reach_S, IH by (apply (raw_between s (Z.of_nat n) (Z.of_nat (S n))); lia). unfold advance. cbn [q_halt q_pos q_frac q_speed]. cbv zeta.
    destruct (raw_step s (Z.of_nat n)) as (S1 & S2). replace (Z.of_nat (S n)) with (Z.of_nat n + 1) in * by lia. rewrite S1, S2 in *.
    replace ((0 <=? raw_pos s (Z.of_nat n) + (raw_frac s (Z.of_nat n) + q_speed s) / 1048576) && (raw_pos s (Z.of_nat n) + (raw_frac s (Z.of_nat n) + q_speed s) / 1048576 <? len)) with true by lia. reflexivity.
Qed.

Lemma reach_stop mode len s n : mode <> BK_REPEAT -> mode <> BK_PALINDROME -> q_halt s = false -> 0 <= q_pos s < len -> 0 <= q_frac s < 1048576 ->
  0 <= raw_pos s (Z.of_nat n) < len -> ~ 0 <= raw_pos s (Z.of_nat n + 1) < len -> q_halt (reach (S n) mode len None s) = true.
Proof.
  intros M1 M2 H P F B O. rewrite reach_S, reach_once by assumption. unfold advance. cbn [q_halt q_pos q_frac q_speed]. cbv zeta. destruct (raw_step s (Z.of_nat n)) as (S1 & S2). rewrite S1 in O.
  replace ((0 <=? raw_pos s (Z.of_nat n) + (raw_frac s (Z.of_nat n) + q_speed s) / 1048576) && (raw_pos s (Z.of_nat n) + (raw_frac s (Z.of_nat n) + q_speed s) / 1048576 <? len)) with false by lia.
  replace (mode =? BK_REPEAT) with false by lia. replace (mode =? BK_PALINDROME) with false by lia. reflexivity.
Qed.

(** There and back again: positions of a way along the frames and back, with the last frame twice and the first once. *)
Definition fold_pos (len i : Z) : Z := let r := i mod (2 * len - 1) in if r <? len then r else 2 * len - 1 - r.

Lemma reach_palindrome len k s : 2 <= len -> Z.abs k < len -> q_halt s = false -> 0 <= q_pos s < len -> 0 <= q_frac s < 1048576 -> q_speed s = k * 1048576 ->
  let a := Z.abs k in let i0 := if 0 <=? k then q_pos s else 2 * len - 1 - q_pos s in
  forall n, exists d, (d = a \/ d = - a) /\ reach n BK_PALINDROME len None s = mk_spos (fold_pos len (i0 + Z.of_nat n * a)) (q_frac s) (d * 1048576) false.
Proof.
  intros L K H P F SP a i0.
  assert (G : forall n, exists d, reach n BK_PALINDROME len None s = mk_spos (fold_pos len (i0 + Z.of_nat n * a)) (q_frac s) (d * 1048576) false /\
    (d = a /\ (i0 + Z.of_nat n * a) mod (2 * len - 1) < len \/ d = - a /\ (len <= (i0 + Z.of_nat n * a) mod (2 * len - 1) \/ (i0 + Z.of_nat n * a) mod (2 * len - 1) = 0))).
  { induction n as [|n (d & IH & D)].
    - exists k. cbn [reach Z.of_nat]. rewrite Z.mul_0_l, Z.add_0_r. rewrite <- SP, <- H. unfold i0, fold_pos, a. destruct (Z.leb_spec 0 k).
      + rewrite Z.mod_small by lia. replace (q_pos s <? len) with true by lia. split; [destruct s; reflexivity|]. left. lia.
      + destruct (Z.eq_dec (q_pos s) 0) as [Q|Q].
        * rewrite Q, Z.sub_0_r, Z.mod_same by lia. cbv zeta. replace (0 <? len) with true by lia. split; [rewrite <- Q; destruct s; reflexivity|]. right. lia.
        * rewrite Z.mod_small by lia. cbv zeta. replace (2 * len - 1 - q_pos s <? len) with false by lia. split; [replace (2 * len - 1 - (2 * len - 1 - q_pos s)) with (q_pos s) by ring; destruct s; reflexivity|]. right. lia.
    - rewrite reach_S, IH. unfold advance. cbn [q_halt q_pos q_frac q_speed]. cbv zeta. rewrite Z.div_add, Z.mod_add by lia. rewrite (Z.div_small (q_frac s)), (Z.mod_small (q_frac s)) by lia. rewrite Z.add_0_l.
      change (BK_PALINDROME =? BK_REPEAT) with false. change (BK_PALINDROME =? BK_PALINDROME) with true. cbn iota. unfold hold_in, held_pos. cbn [q_pos q_frac q_speed q_halt].
      assert (NX : i0 + Z.of_nat (S n) * a = i0 + Z.of_nat n * a + a) by lia. rewrite NX. set (i := i0 + Z.of_nat n * a) in *. clearbody i. clear NX IH.
      set (m := 2 * len - 1) in *. assert (A0 : 0 <= a < len) by (unfold a; lia). pose proof (Z.mod_pos_bound i m ltac:(lia)) as R. pose proof (Z.div_mod i m ltac:(lia)) as DM. set (r := i mod m) in *.
      assert (N1 : r + a < m -> (i + a) mod m = r + a) by (intros X; symmetry; apply Z.mod_unique with (i / m); lia).
      assert (N2 : m <= r + a -> (i + a) mod m = r + a - m) by (intros X; symmetry; apply Z.mod_unique with (i / m + 1); lia).
      unfold fold_pos. fold m. fold r. cbv zeta. destruct D as [(-> & D)|(-> & D)].
      + replace (r <? len) with true by lia. destruct (Z.lt_ge_cases (r + a) len) as [C|C].
        * exists a. replace ((0 <=? r + a) && (r + a <? len)) with true by lia. rewrite N1 by lia. replace (r + a <? len) with true by lia. split; [reflexivity|]. left. lia.
        * exists (- a). replace ((0 <=? r + a) && (r + a <? len)) with false by lia. replace (r + a <? 0) with false by lia. fold m. replace (- (a * 1048576)) with (- a * 1048576) by ring.
          destruct (Z.eq_dec (r + a) m) as [Q|Q]; [rewrite N2 by lia; replace (r + a - m <? len) with true by lia; split; [f_equal; lia|right; lia]|].
          rewrite N1 by lia. replace (r + a <? len) with false by lia. split; [reflexivity|]. right. lia.
      + destruct (Z.eq_dec r 0) as [Q|Q].
        * replace (r <? len) with true by lia. destruct (Z.eq_dec a 0) as [QA|QA].
          { exists (- a). replace ((0 <=? r + - a) && (r + - a <? len)) with true by lia. rewrite N1 by lia. replace (r + a <? len) with true by lia. split; [f_equal; lia|right; lia]. }
          exists a. replace ((0 <=? r + - a) && (r + - a <? len)) with false by lia. replace (r + - a <? 0) with true by lia. rewrite N1 by lia. replace (r + a <? len) with true by lia. split; [f_equal; lia|]. left. lia.
        * destruct D as [D|D]; [|lia]. replace (r <? len) with false by lia. destruct (Z.le_gt_cases (r + a) m) as [C|C].
          { exists (- a). replace ((0 <=? m - r + - a) && (m - r + - a <? len)) with true by lia. destruct (Z.eq_dec (r + a) m) as [E|E].
            - rewrite N2 by lia. replace (r + a - m <? len) with true by lia. split; [f_equal; lia|right; lia].
            - rewrite N1 by lia. replace (r + a <? len) with false by lia. split; [f_equal; lia|right; lia]. }
          exists a. replace ((0 <=? m - r + - a) && (m - r + - a <? len)) with false by lia. replace (m - r + - a <? 0) with true by lia. rewrite N2 by lia. replace (r + a - m <? len) with true by lia. split; [f_equal; lia|]. left. lia. }
  intros n. destruct (G n) as (d & E & D). exists d. split; [|exact E]. destruct D as [(-> & _)|(-> & _)]; auto.
Qed.

(** ** Held ranges *)

Lemma advance_held mode len a b s : 0 <= a < b -> b < len -> q_halt s = false -> 0 <= q_pos s < b -> 0 <= q_frac s < 1048576 -> 0 < q_speed s <= (len - b) * 1048576 ->
  let z := q_pos s + (q_frac s + q_speed s) / 1048576 in
  advance mode len (Some (a, b)) s = mk_spos (if z <? b then z else a) ((q_frac s + q_speed s) mod 1048576) (q_speed s) false.
Proof.
  intros AB BL H P F S z. unfold advance. rewrite H. cbv zeta. fold z.
  assert (Z1 : 0 <= (q_frac s + q_speed s) / 1048576) by (apply Z.div_pos; lia). assert (Z2 : (q_frac s + q_speed s) / 1048576 < len - b + 1) by (apply Z.div_lt_upper_bound; lia).
  replace ((0 <=? z) && (z <? len)) with true by lia. unfold hold_in, held_pos. cbn [q_pos q_frac q_speed q_halt]. replace (0 <? q_speed s) with true by lia. f_equal. destruct (Z.leb_spec b z); destruct (Z.ltb_spec z b); lia || reflexivity.
Qed.

Lemma reach_held mode len a b s : 0 <= a < b -> b < len -> q_halt s = false -> 0 <= q_pos s < b -> 0 <= q_frac s < 1048576 -> 0 < q_speed s <= (len - b) * 1048576 -> forall n,
  let q := reach n mode len (Some (a, b)) s in
  q_halt q = false /\ 0 <= q_pos q < b /\ (q_pos s <= q_pos q \/ a <= q_pos q) /\ q_frac q = raw_frac s (Z.of_nat n) /\ q_speed q = q_speed s.
Proof.
  intros AB BL H P F S. induction n as [|n IH]; cbv zeta in *.
  - cbn [reach]. destruct (raw_0 s F) as (_ & R). cbn [Z.of_nat]. rewrite R. split; [exact H|]. split; [exact P|]. split; [left; lia|]. split; reflexivity.
  - destruct IH as (I1 & I2 & I3 & I4 & I5). rewrite reach_S. set (q := reach n mode len (Some (a, b)) s) in *. clearbody q.
    assert (FQ : 0 <= q_frac q < 1048576) by (rewrite I4; apply Z.mod_pos_bound; lia).
    rewrite (advance_held mode len a b q AB BL I1 I2 FQ ltac:(lia)). cbn [q_halt q_pos q_frac q_speed]. destruct (raw_step s (Z.of_nat n)) as (_ & R). replace (Z.of_nat (Datatypes.S n)) with (Z.of_nat n + 1) by lia. rewrite R, I4, I5.
    rewrite I4 in FQ. assert (Z1 : 0 <= (raw_frac s (Z.of_nat n) + q_speed s) / 1048576) by (apply Z.div_pos; lia).
    split; [reflexivity|]. destruct (Z.ltb_spec (q_pos q + (raw_frac s (Z.of_nat n) + q_speed s) / 1048576) b); (split; [lia|]); (split; [lia|]); split; reflexivity.
Qed.

(** At the speed of one frame per step. *)
Definition loop_pos (a b i : Z) : Z := if i <? b then i else a + (i - b) mod (b - a).

Lemma reach_looped mode len a b s : 0 <= a < b -> b < len -> q_halt s = false -> 0 <= q_pos s < b -> 0 <= q_frac s < 1048576 -> q_speed s = 1048576 -> forall n,
  reach n mode len (Some (a, b)) s = mk_spos (loop_pos a b (q_pos s + Z.of_nat n)) (q_frac s) 1048576 false.
Proof.
  intros AB BL H P F S. induction n as [|n IH].
  - cbn [reach Z.of_nat]. rewrite Z.add_0_r. unfold loop_pos. replace (q_pos s <? b) with true by lia. rewrite <- S, <- H. destruct s; reflexivity.
  - rewrite reach_S, IH. set (i := q_pos s + Z.of_nat n) in *. assert (LB : 0 <= loop_pos a b i < b) by (unfold loop_pos; destruct (Z.ltb_spec i b); [lia|pose proof (Z.mod_pos_bound (i - b) (b - a) ltac:(lia)); lia]).
    rewrite advance_held; cbn [q_halt q_pos q_frac q_speed]; [|exact AB|exact BL|reflexivity|exact LB|exact F|lia].
    replace (q_frac s + 1048576) with (q_frac s + 1 * 1048576) by ring. rewrite Z.div_add, Z.mod_add by lia. rewrite (Z.div_small (q_frac s)), (Z.mod_small (q_frac s)) by lia. f_equal.
    replace (q_pos s + Z.of_nat (Datatypes.S n)) with (i + 1) by lia. rewrite Z.add_0_l. clearbody i. unfold loop_pos in *. destruct (Z.ltb_spec i b) as [I|I].
    + destruct (Z.ltb_spec (i + 1) b) as [J|J]; [reflexivity|]. replace (i + 1 - b) with 0 by lia. rewrite Z.mod_0_l by lia. lia.
    + replace (i + 1 <? b) with false by lia. pose proof (Z.mod_pos_bound (i - b) (b - a) ltac:(lia)) as R. pose proof (Z.div_mod (i - b) (b - a) ltac:(lia)) as D. set (r := (i - b) mod (b - a)) in *.
      replace (i + 1 - b) with (i - b + 1) by ring. destruct (Z.ltb_spec (a + r + 1) b) as [J|J].
      * assert ((i - b + 1) mod (b - a) = r + 1) as -> by (symmetry; apply Z.mod_unique with ((i - b) / (b - a)); lia). ring.
      * assert ((i - b + 1) mod (b - a) = 0) as -> by (symmetry; apply Z.mod_unique with ((i - b) / (b - a) + 1); lia). ring.
Qed.
