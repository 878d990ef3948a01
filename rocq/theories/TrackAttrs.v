(** Attributes and effects of tracks read back; muted and cleared tracks. *)
From Verif Require Import CInt CIntFacts DataModel UnitModel UnitSpec UnitProofs UnitProofs2 UnitProofs5 UnitInv UnitInv2 UnitInv3 UnitCount
  InterpModel InterpProofs IntervalProofs SlideIn ToneModel PropertiesTone SequenceModel TrackModel TrackSpec TrackInv TrackProofs TrackProofs2
  TrackProofs3 TrackProofs4 TrackProofs5 TrackProofs6 TrackVolume TrackPlay TrackTicks TrackNote.
Ltac Zify.zify_post_hook ::= idtac.

(** ** Effects *)

Lemma steps_max v : Z.max 0 (BKClamp v 0 BK_TRACK_EFFECT_MAX_STEPS) = BKClamp v 0 65536.
Proof. unfold BK_TRACK_EFFECT_MAX_STEPS. pose proof (clamp_range v 0 65536 ltac:(lia)). lia. Qed.

Lemma slide_effects fuel t effect v0 v1 v2 : track_ok fuel t ->
  effect = BK_EFFECT_VOLUME_SLIDE \/ effect = BK_EFFECT_PANNING_SLIDE \/ effect = BK_EFFECT_PORTAMENTO ->
  exists t', BKTrackSetEffect t effect (Some [v0; v1; v2]) 12 = Ok (t', 0) /\ track_ok fuel t' /\
    BKTrackGetEffect t' effect 12 = (0, [Z.max 0 (BKClamp v0 0 BK_TRACK_EFFECT_MAX_STEPS); 0; 0]).
Proof.
  intros H HE. pose proof (clamp_range v0 0 BK_TRACK_EFFECT_MAX_STEPS ltac:(discriminate)) as B0.
  destruct (set_effect_ok fuel t effect (Some [v0; v1; v2]) 12 H ltac:(lia)) as (t' & r & E & H').
  { split; [cbn; lia|]. destruct HE as [-> |[-> | ->]]; discriminate. }
  assert (K : exists t1, BKTrackSetEffect t effect (Some [v0; v1; v2]) 12 = Ok (t1, 0) /\
    BKTrackGetEffect t1 effect 12 = (0, [Z.max 0 (BKClamp v0 0 BK_TRACK_EFFECT_MAX_STEPS); 0; 0])).
  { unfold BKTrackSetEffect. change (effect_values (Some [v0; v1; v2]) 12) with (Ok [v0; v1; v2]). cbn [bind]. cbv zeta. cbn [nth].
    set (n0 := BKClamp v0 _ _) in *. clearbody n0. unfold BK_TRACK_EFFECT_MAX_STEPS in B0. clear E.
    destruct HE as [-> |[-> | ->]].
    - change (effect_flag BK_EFFECT_VOLUME_SLIDE) with (Some FVolSlide). cbv iota.
      destruct (in_steps 15 0 32767 ltac:(lia) (target15 0 ltac:(lia)) (target15 32767 ltac:(lia)) (tr_volume t) n0 (tk_volume _ _ H) ltac:(lia)) as (s & -> & I & _ & ES). cbn [bind].
      eexists. split; [reflexivity|]. rewrite <- ES. reflexivity.
    - change (effect_flag BK_EFFECT_PANNING_SLIDE) with (Some FPanSlide). cbv iota.
      destruct (in_steps 15 (-32767) 32767 ltac:(lia) (target15 (-32767) ltac:(lia)) (target15 32767 ltac:(lia)) (tr_panning t) n0 (tk_panning _ _ H) ltac:(lia)) as (s & -> & I & _ & ES). cbn [bind].
      eexists. split; [reflexivity|]. rewrite <- ES. reflexivity.
    - change (effect_flag BK_EFFECT_PORTAMENTO) with (Some FPorta). cbv iota.
      destruct (in_steps 0 0 MAX_NOTE ltac:(lia) (target0 0 ltac:(lia)) (target0 MAX_NOTE ltac:(unfold MAX_NOTE; lia)) (tr_note t) n0 (tk_note _ _ H) ltac:(lia)) as (s & -> & I & _ & ES). cbn [bind].
      eexists. split; [reflexivity|]. rewrite <- ES. reflexivity. }
  destruct K as (t1 & E1 & G1). rewrite E in E1. assert (t1 = t') as -> by congruence. assert (r = 0) as -> by congruence. exists t'. auto.
Qed.

Lemma wave_effects fuel t effect v0 v1 v2 : track_ok fuel t ->
  effect = BK_EFFECT_TREMOLO \/ effect = BK_EFFECT_VIBRATO /\ Z.abs v1 <= MAX_VIBRATO ->
  exists t', BKTrackSetEffect t effect (Some [v0; v1; v2]) 12 = Ok (t', 0) /\ track_ok fuel t' /\
    BKTrackGetEffect t' effect 12 =
      (0, [BKClamp v0 0 65536 * 16384; if effect =? BK_EFFECT_TREMOLO then BKClamp v1 0 32767 * 32768 else v1; BKClamp v2 0 65536]).
Proof.
  intros H HE. pose proof (clamp_range v0 0 BK_TRACK_EFFECT_MAX_STEPS ltac:(discriminate)) as B0. pose proof (clamp_range v2 0 BK_TRACK_EFFECT_MAX_STEPS ltac:(discriminate)) as B2.
  destruct (set_effect_ok fuel t effect (Some [v0; v1; v2]) 12 H ltac:(lia)) as (t' & r & E & H').
  { split; [cbn; lia|]. destruct HE as [-> |(-> & B)]; [discriminate|]. intros _. exact B. }
  assert (K : exists t1, BKTrackSetEffect t effect (Some [v0; v1; v2]) 12 = Ok (t1, 0) /\
    BKTrackGetEffect t1 effect 12 =
      (0, [BKClamp v0 0 65536 * 16384; if effect =? BK_EFFECT_TREMOLO then BKClamp v1 0 32767 * 32768 else v1; BKClamp v2 0 65536])).
  { revert E. unfold BKTrackSetEffect. change (effect_values (Some [v0; v1; v2]) 12) with (Ok [v0; v1; v2]). cbn [bind]. cbv zeta. cbn [nth].
    change BK_TRACK_EFFECT_MAX_STEPS with 65536 in *. set (n0 := BKClamp v0 0 65536) in *. set (n2 := BKClamp v2 0 65536) in *. clearbody n0 n2.
    destruct HE as [-> |(-> & B)].
    - change (effect_flag BK_EFFECT_TREMOLO) with (Some FTremolo). cbv iota. change (BK_EFFECT_TREMOLO =? BK_EFFECT_TREMOLO) with true. cbv iota.
      change BK_MAX_VOLUME with 32767. pose proof (clamp_range v1 0 32767 ltac:(lia)) as B1. set (d := BKClamp v1 0 32767) in *. clearbody d. intros E.
      apply bind_inv in E. destruct E as (t1 & E1 & E). apply bind_inv in E1. destruct E1 as (((dd & ss) & ii) & E1 & E2). rewrite E1. cbn [bind]. eexists. split; [reflexivity|].
      unfold set_interval_effect in E1. 
      destruct (in_set 15 0 32767 ltac:(lia) (target15 0 ltac:(lia)) (target15 32767 ltac:(lia)) (tr_tremoloDelta t) d n2 (tk_tremoloDelta _ _ H) B1 ltac:(lia)) as (x & Ex & _ & X1 & X2 & _).
      destruct (in_set 14 0 65536 ltac:(lia) (target14 0 ltac:(lia)) (target14 65536 ltac:(lia)) (tr_tremoloSteps t) n0 n2 (tk_tremoloSteps _ _ H) B0 ltac:(lia)) as (y & Ey & _ & Y1 & Y2 & _).
      rewrite Ex, Ey in E1. cbn [bind] in E1. apply bind_inv in E1. destruct E1 as (z & _ & E1). assert (dd = x) as -> by congruence. assert (ss = y) as -> by congruence.
      rewrite P15 in X1. rewrite P14 in Y1. replace n2 with (Z.max 0 n2) by lia. rewrite <- X1, <- Y1, <- X2. reflexivity.
    - change (effect_flag BK_EFFECT_VIBRATO) with (Some FVibrato). cbv iota. change (BK_EFFECT_VIBRATO =? BK_EFFECT_TREMOLO) with false. cbv iota. intros E.
      apply bind_inv in E. destruct E as (t1 & E1 & E). apply bind_inv in E1. destruct E1 as (((dd & ss) & ii) & E1 & E2). rewrite E1. cbn [bind]. eexists. split; [reflexivity|].
      unfold set_interval_effect in E1.
      destruct (in_set 0 (- MAX_VIBRATO) MAX_VIBRATO ltac:(lia) (target0 (- MAX_VIBRATO) ltac:(unfold MAX_VIBRATO; lia)) (target0 MAX_VIBRATO ltac:(unfold MAX_VIBRATO; lia)) (tr_vibratoDelta t) v1 n2 (tk_vibratoDelta _ _ H) ltac:(lia) ltac:(lia)) as (x & Ex & _ & X1 & X2 & _).
      destruct (in_set 14 0 65536 ltac:(lia) (target14 0 ltac:(lia)) (target14 65536 ltac:(lia)) (tr_vibratoSteps t) n0 n2 (tk_vibratoSteps _ _ H) B0 ltac:(lia)) as (y & Ey & _ & Y1 & Y2 & _).
      rewrite Ex, Ey in E1. cbn [bind] in E1. apply bind_inv in E1. destruct E1 as (z & _ & E1). assert (dd = x) as -> by congruence. assert (ss = y) as -> by congruence.
      rewrite P0, Z.mul_1_r in X1. rewrite P14 in Y1. replace n2 with (Z.max 0 n2) by lia. rewrite <- X1, <- Y1, <- X2. reflexivity. }
  destruct K as (t1 & E1 & G1). rewrite E in E1. assert (t1 = t') as -> by congruence. assert (r = 0) as -> by congruence. exists t'. auto.
Qed.

(** With size 0 effects are always off. *)
Lemma effect_off t effect k mem t' r : effect_flag effect = Some k -> BKTrackSetEffect t effect (Some mem) 0 = Ok (t', r) -> r = 0 /\ has t' k = false.
Proof.
  intros EF E. unfold BKTrackSetEffect in E. change (effect_values (Some mem) 0) with (Ok [0; 0; 0]) in E. cbn [bind] in E. cbv zeta in E. rewrite EF in E.
  apply bind_inv in E. destruct E as (t1 & _ & E). assert (r = 0) as -> by congruence. split; [reflexivity|].
  assert (EX : t' = put t1 k (negb (nth 0 [0; 0; 0] 0 =? 0))) by congruence. rewrite EX. unfold put, has. destruct t1 as [? ? ? f]. destruct f, k; reflexivity.
Qed.

(** ** Muted tracks *)

Definition silent (t : track) : Prop := un_mute (tr_unit t) <> 0.
(** An attribute that does not unmute. *)
Lemma attr_mute u k v u' r : BKUnitSetAttr u k v = Ok (u', r) -> k = BK_DUTY_CYCLE \/ k = BK_PERIOD \/ k = BK_SAMPLE_PERIOD \/ k = BK_VOLUME \/ k = BK_VOLUME_0 \/ k = BK_VOLUME_0 + 1 \/ k = BK_MUTE /\ v = 1 \/ k = BK_FLAG_RELEASE ->
  un_mute u <> 0 \/ k = BK_MUTE -> un_mute u' <> 0.
Proof.
  intros E HK HU. destruct HK as [-> |[-> |[-> |[-> |[-> |[-> |[(-> & ->)| ->]]]]]]].
  - destruct HU as [HU|C]; [|discriminate C]. unfold BKUnitSetAttr in E. cbv zeta in E. change (BK_DUTY_CYCLE =? BK_DUTY_CYCLE) with true in E. cbv iota in E. destruct (negb _).
    + match type of E with Ok (?x, _) = _ => assert (u' = x) as -> by congruence end. destruct (_ && _); exact HU.
    + assert (u' = u) as -> by congruence. exact HU.
  - destruct HU as [HU|C]; [|discriminate C]. change (BKUnitSetAttr u BK_PERIOD v) with (let* v := abs32 v in Ok (set_period u (BKMax v BK_MIN_PERIOD), 0)) in E.
    apply bind_inv in E. destruct E as (w & _ & E). match type of E with Ok (?x, _) = _ => assert (u' = x) as -> by congruence end. exact HU.
  - destruct HU as [HU|C]; [|discriminate C]. change (BKUnitSetAttr u BK_SAMPLE_PERIOD v) with
      (let* v := abs32 v in
       let v := BKClamp v BK_MIN_SAMPLE_PERIOD BK_MAX_SAMPLE_PERIOD in
       Ok (set_sm u (s_period (un_sample u) (if sm_period (un_sample u) <? 0 then - v else v)), 0)) in E.
    apply bind_inv in E. destruct E as (w & _ & E). cbv zeta in E. match type of E with Ok (?x, _) = _ => assert (u' = x) as -> by congruence end. exact HU.
  - destruct HU as [HU|C]; [|discriminate C]. rewrite set_all in E. match type of E with Ok (?x, _) = _ => assert (u' = x) as -> by congruence end. exact HU.
  - destruct HU as [HU|C]; [|discriminate C]. rewrite set_first in E. apply bind_inv in E. destruct E as (w & _ & E). match type of E with Ok (?x, _) = _ => assert (u' = x) as -> by congruence end. exact HU.
  - destruct HU as [HU|C]; [|discriminate C]. rewrite set_second in E. apply bind_inv in E. destruct E as (w & _ & E). match type of E with Ok (?x, _) = _ => assert (u' = x) as -> by congruence end. exact HU.
  - apply mute_tuned in E. destruct E as (_ & ->). discriminate.
  - destruct HU as [HU|C]; [|discriminate C]. apply release_held in E. destruct E as (_ & ->). exact HU.
Qed.
Lemma unit_attr_silent t k v t' : unit_attr t k v = Ok t' -> k = BK_DUTY_CYCLE \/ k = BK_PERIOD \/ k = BK_SAMPLE_PERIOD \/ k = BK_VOLUME \/ k = BK_VOLUME_0 \/ k = BK_VOLUME_0 + 1 \/ k = BK_MUTE /\ v = 1 \/ k = BK_FLAG_RELEASE ->
  silent t \/ k = BK_MUTE -> silent t'.
Proof. intros E HK HU. apply unit_attr_inv in E. destruct E as (u & r & E & ->). exact (attr_mute _ _ _ _ _ E HK HU). Qed.

Lemma update_silent t t' : BKTrackUpdateUnit t = Ok t' -> silent t -> silent t'.
Proof.
  intros E H. unfold BKTrackUpdateUnit in E. apply bind_inv in E. destruct E as (t1 & E1 & E). apply bind_inv in E. destruct E as (t2 & E2 & E).
  assert (H1 : silent t1).
  { destruct (has t FVolume); [|congruence]. apply bind_inv in E1. destruct E1 as (t3 & E3 & E1). match type of E1 with Ok ?x = _ => assert (t1 = x) as -> by congruence end.
    change (silent t3). unfold BKTrackUpdateUnitVolume in E3. apply bind_inv in E3. destruct E3 as ((v & p) & _ & E3). destruct (_ && _).
    - apply bind_inv in E3. destruct E3 as (v0 & _ & E3). apply bind_inv in E3. destruct E3 as (v1 & _ & E3). apply bind_inv in E3. destruct E3 as (t4 & E4 & E3).
      apply (unit_attr_silent _ _ _ _ E3); [tauto|]. left. apply (unit_attr_silent _ _ _ _ E4); [tauto|auto].
    - apply (unit_attr_silent _ _ _ _ E3); [tauto|auto]. }
  assert (H2 : silent t2).
  { destruct (has t1 FNote); [|congruence]. apply bind_inv in E2. destruct E2 as (t3 & E3 & E2). match type of E2 with Ok ?x = _ => assert (t2 = x) as -> by congruence end.
    change (silent t3). unfold BKTrackUpdateUnitNote in E3. destruct (un_ctx _); [|congruence]. apply bind_inv in E3. destruct E3 as (n & _ & E3). destruct (negb _).
    - apply bind_inv in E3. destruct E3 as (p & _ & E3). destruct (_ =? 0); [discriminate|]. apply (unit_attr_silent _ _ _ _ E3); auto.
    - apply bind_inv in E3. destruct E3 as (m & _ & E3). apply bind_inv in E3. destruct E3 as (p & _ & E3). apply (unit_attr_silent _ _ _ _ E3); auto. }
  destruct (has t2 FDuty); [|congruence]. apply bind_inv in E. destruct E as (t3 & E3 & E). match type of E with Ok ?x = _ => assert (t' = x) as -> by congruence end.
  change (silent t3). unfold BKTrackUpdateUnitDutyCycle in E3. apply bind_inv in E3. destruct E3 as (d & _ & E3). apply (unit_attr_silent _ _ _ _ E3); auto.
Qed.

Lemma iflags_unit t b : tr_unit (BKTrackInstrumentUpdateFlags t b) = tr_unit t.
Proof.
  unfold BKTrackInstrumentUpdateFlags. destruct b; [reflexivity|]. cbv zeta.
  assert (K : forall (x : bool) k t0, tr_unit (if x then put t0 k true else t0) = tr_unit t0) by (intros [|]; reflexivity). rewrite !K. reflexivity.
Qed.
Lemma plain_unit fuel t p t' b : set_phase_plain fuel t p = Ok (t', b) -> tr_unit t' = tr_unit t.
Proof.
  unfold set_phase_plain. destruct (tr_instr t) as [[? ?]|].
  - intros E. apply bind_inv in E. destruct E as (s & _ & E). assert (t' = t_istate t s) as -> by congruence. reflexivity.
  - intros E. assert (t' = t) as -> by congruence. reflexivity.
Qed.
Lemma mute_silent sp t t' : set_note_mute sp t = Ok t' -> silent t'.
Proof.
  intros E. unfold set_note_mute in E. cbv zeta in E. apply bind_inv in E. destruct E as (t1 & _ & E).
  apply bind_inv in E. destruct E as (t2 & E2 & E). apply bind_inv in E. destruct E as (t3 & E3 & E). match type of E with Ok ?x = _ => assert (t' = x) as -> by congruence end.
  change (silent t3). apply (unit_attr_silent _ _ _ _ E3); [tauto|]. left. apply (unit_attr_silent _ _ _ _ E2); [tauto|auto].
Qed.
Lemma phase_silent fuel t p t' : track_set_phase fuel t p = Ok t' -> silent t -> silent t'.
Proof.
  unfold track_set_phase. intros E H. apply bind_inv in E. destruct E as ((t1 & b) & E1 & E). apply plain_unit in E1. destruct b.
  - exact (mute_silent _ _ _ E).
  - assert (t' = t1) as -> by congruence. unfold silent. rewrite E1. exact H.
Qed.
Lemma loop_silent fuel n : forall i t level t', track_tick_loop fuel n i t level = Ok t' -> silent t -> silent t'.
Proof.
  induction n as [|n IH]; intros i t level t' E H; cbn [track_tick_loop] in E; [congruence|].
  apply bind_inv in E. destruct E as (st & _ & E). apply bind_inv in E. destruct E as ((st' & r) & _ & E). apply bind_inv in E. destruct E as (sts & _ & E).
  apply bind_inv in E. destruct E as (t1 & E1 & E). apply (IH _ _ _ _ E). destruct (r =? _).
  - destruct (_ =? 0); [apply (phase_silent _ _ _ _ E1); exact H|]. match type of E1 with Ok ?x = _ => assert (t1 = x) as -> by congruence end. exact H.
  - match type of E1 with Ok ?x = _ => assert (t1 = x) as -> by congruence end. exact H.
Qed.
Lemma effect_unit t t' : BKTrackEffectTick t = Ok t' -> tr_unit t' = tr_unit t.
Proof.
  unfold BKTrackEffectTick. intros E.
  apply bind_inv in E. destruct E as (t1 & E1 & E). apply bind_inv in E. destruct E as (t2 & E2 & E). apply bind_inv in E. destruct E as (t3 & E3 & E). apply bind_inv in E. destruct E as (t4 & E4 & E).
  assert (U1 : tr_unit t1 = tr_unit t) by (destruct (has t FPorta); [apply bind_inv in E1; destruct E1 as (s & _ & E1); match type of E1 with Ok ?x = _ => assert (t1 = x) as -> by congruence end; reflexivity|congruence]).
  assert (U2 : tr_unit t2 = tr_unit t1) by (destruct (has t1 FVolSlide); [apply bind_inv in E2; destruct E2 as (s & _ & E2); match type of E2 with Ok ?x = _ => assert (t2 = x) as -> by congruence end; reflexivity|congruence]).
  assert (U3 : tr_unit t3 = tr_unit t2) by (destruct (has t2 FPanSlide); [apply bind_inv in E3; destruct E3 as (s & _ & E3); match type of E3 with Ok ?x = _ => assert (t3 = x) as -> by congruence end; reflexivity|congruence]).
  assert (U4 : tr_unit t4 = tr_unit t3) by (destruct (has t3 FTremolo); [apply bind_inv in E4; destruct E4 as (((? & ?) & ?) & _ & E4); match type of E4 with Ok ?x = _ => assert (t4 = x) as -> by congruence end; reflexivity|congruence]).
  assert (U5 : tr_unit t' = tr_unit t4) by (destruct (has t4 FVibrato); [apply bind_inv in E; destruct E as (((? & ?) & ?) & _ & E); match type of E with Ok ?x = _ => assert (t' = x) as -> by congruence end; reflexivity|congruence]).
  congruence.
Qed.
Lemma tick_silent fuel t t' : BKTrackTick fuel t = Ok t' -> silent t -> silent t'.
Proof.
  unfold BKTrackTick. cbv zeta. intros E H. destruct (effect_flags_marks t) as (_ & _ & U0 & _). set (t0 := BKTrackEffectUpdateFlags t) in *. clearbody t0.
  assert (H0 : silent t0) by (unfold silent; rewrite U0; exact H).
  apply bind_inv in E. destruct E as (t1 & E1 & E). apply bind_inv in E. destruct E as (t2 & E2 & E). apply bind_inv in E. destruct E as (t3 & E3 & E).
  assert (H1 : silent t1).
  { destruct (has t0 FArp); [|congruence]. apply bind_inv in E1. destruct E1 as ((d & b) & _ & E1). destruct b.
    - unfold BKTrackArpeggioTick in E1. cbv zeta in E1. apply bind_inv in E1. destruct E1 as (x & _ & E1). apply bind_inv in E1. destruct E1 as (y & _ & E1).
      match type of E1 with Ok ?x = _ => assert (t1 = x) as -> by congruence end. exact H0.
    - match type of E1 with Ok ?x = _ => assert (t1 = x) as -> by congruence end. exact H0. }
  assert (H2 : silent t2).
  { destruct (has t1 FInstr); [|congruence]. apply bind_inv in E2. destruct E2 as ((d & b) & _ & E2). unfold BKTrackInstrumentTick in E2.
    change (tr_instr (t_instrDiv t1 d)) with (tr_instr t1) in E2. destruct (tr_instr t1) as [[? ?]|]; [|discriminate]. apply bind_inv in E2. destruct E2 as (t4 & E4 & E2).
    match type of E2 with Ok ?x = _ => assert (t2 = x) as -> by congruence end. unfold silent. rewrite iflags_unit. apply (loop_silent _ _ _ _ _ _ E4). exact H1. }
  apply (update_silent _ _ E3) in H2. destruct (any_effect t3); [|congruence]. apply bind_inv in E. destruct E as ((d & b) & _ & E). destruct b.
  - apply effect_unit in E. unfold silent. rewrite E. exact H2.
  - match type of E with Ok ?x = _ => assert (t' = x) as -> by congruence end. exact H2.
Qed.
Lemma repeat_nil n : Forall (fun l : list (Z * Z) => l = []) (repeat [] n).
Proof. induction n; cbn; constructor; auto. Qed.
Lemma run_silent fuel t e t' l : BKTrackRun fuel t e = Ok (t', l) -> silent t -> silent t' /\ Forall (fun c => c = []) l.
Proof.
  unfold BKTrackRun. intros E H. apply bind_inv in E. destruct E as (t1 & E1 & E). apply (update_silent _ _ E1) in H. apply bind_inv in E. destruct E as ((u & l') & E2 & E).
  assert (t' = t_unit t1 u) as -> by congruence. assert (l' = l) as -> by congruence. change (un_mute u <> 0 /\ Forall (fun c => c = []) l). clear E E1.
  unfold silent in H. apply Z.eqb_neq in H as HB. unfold BKUnitRun in E2. destruct (un_ctx _) as [n|]; [|discriminate]. cbv zeta in E2. apply bind_inv in E2. destruct E2 as (((u1 & tm) & l1) & E2 & E).
  match type of E with Ok (?x, _) = _ => assert (u = x) as -> by congruence end. assert (l = l1) as -> by congruence. change (un_mute u1 <> 0 /\ Forall (fun c => c = []) l1). clear E.
  assert (K : exists tm', Ok (tr_unit t1, tm', repeat [] (Z.to_nat n)) = Ok (u1, tm, l1)).
  { destruct (_ =? 0); [eexists; exact E2|]. destruct (_ && _).
    - unfold BKUnitRunWaveform in E2. rewrite HB in E2. eexists; exact E2.
    - destruct (_ =? _); [|eexists; exact E2]. unfold BKUnitRunSample in E2. cbv zeta in E2. rewrite HB in E2. eexists; exact E2. }
  destruct K as (tm' & K). assert (u1 = tr_unit t1) as -> by congruence. assert (l1 = repeat [] (Z.to_nat n)) as -> by congruence. split; [exact H|apply repeat_nil].
Qed.

(** Ticks and runs of a context. *)
Definition played (o : top) : Prop := match o with OTick | ORun _ | OEnd _ => True | _ => False end.
Lemma plays_silent fuel ops : forall t t' ls, Forall played ops -> silent t -> truns fuel t ops = Ok (t', ls) ->
  silent t' /\ Forall (Forall (fun c => c = [])) ls.
Proof.
  induction ops as [|o ops IH]; intros t t' ls F H E; cbn [truns] in E.
  - assert (t' = t) as -> by congruence. assert (ls = []) as -> by congruence. auto.
  - apply bind_inv in E. destruct E as ((t1 & l) & E1 & E). apply bind_inv in E. destruct E as ((t2 & ls') & E2 & E).
    assert (t' = t2) as -> by congruence. assert (ls = l :: ls') as -> by congruence.
    assert (K : silent t1 /\ Forall (fun c => c = []) l).
    { inversion F as [|? ? PO _]; subst. destruct o; try destruct PO; cbn [tstep] in E1.
      - apply bind_inv in E1. destruct E1 as (t3 & E3 & E1). assert (t1 = t3) as -> by congruence. assert (l = []) as -> by congruence.
        split; [exact (tick_silent _ _ _ E3 H)|constructor].
      - exact (run_silent _ _ _ _ _ E1 H).
      - match type of E1 with Ok (?x, _) = _ => assert (t1 = x) as -> by congruence end. assert (l = []) as -> by congruence. split; [exact H|constructor]. }
    destruct K as (K1 & K2). inversion F; subst. destruct (IH _ _ _ ltac:(eassumption) K1 E2) as (A & B). split; [exact A|]. constructor; assumption.
Qed.

(** Notes that end the sound at once: a mute, and a release without instrument and sustain. *)
Lemma note_ends fuel t v t' : BKTrackSetNote fuel t v = Ok t' ->
  v = BK_NOTE_MUTE \/ v = BK_NOTE_RELEASE /\ has t FInstr = false /\ un_sustain (tr_unit t) = false -> silent t'.
Proof.
  intros E [-> |(-> & HI & HS)].
  - exact (mute_silent _ _ _ E).
  - unfold BKTrackSetNote in E. change (BK_NOTE_RELEASE >=? 0) with false in E. change (BK_NOTE_RELEASE =? BK_NOTE_RELEASE) with true in E. cbv iota zeta in E.
    change (has (t_curNote t (-1)) FInstr) with (has t FInstr) in E. change (un_sustain (tr_unit (t_curNote t (-1)))) with (un_sustain (tr_unit t)) in E. rewrite HI, HS in E.
    apply bind_inv in E. destruct E as (t1 & E1 & E). assert (t' = put t1 FNote true) as -> by congruence. change (silent t1). apply (unit_attr_silent _ _ _ _ E1); [tauto|auto].
Qed.
