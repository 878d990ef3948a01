(** The number of phases of a unit is never 0 once it has a waveform. *)
From Verif Require Import CInt CIntFacts DataModel UnitModel UnitSpec UnitProofs UnitProofs2 UnitProofs3 UnitInv UnitInv2 UnitInv3.
Ltac Zify.zify_post_hook ::= idtac.

Definition counted (u : bkunit) : Prop := 1 <= ph_count (un_phase u).

Lemma phases_counted w c : waveform_phases w = Some c -> 1 <= c.
Proof.
  unfold waveform_phases. repeat (destruct (_ =? _); [intros E; injection E as <-; discriminate|]). discriminate.
Qed.

Lemma attr_counted u attr value u' r : BKUnitSetAttr u attr value = Ok (u', r) -> counted u -> counted u'.
Proof.
  unfold counted. intros E H. unfold BKUnitSetAttr in E. cbv zeta in E.
  assert (K : forall x, Ok (x, 0) = Ok (u', r) -> ph_count (un_phase x) = ph_count (un_phase u) -> 1 <= ph_count (un_phase u')).
  { intros x Ex Ec. assert (u' = x) as -> by congruence. lia. }
  destruct (attr =? BK_DUTY_CYCLE).
  { destruct (negb _); [|apply (K _ E); reflexivity]. apply (K _ E). destruct (_ && _); reflexivity. }
  destruct (attr =? BK_WAVEFORM).
  { destruct (waveform_phases value) as [c|] eqn:W; [|assert (u' = u) as -> by congruence; exact H].
    apply phases_counted in W.
    match type of E with Ok (?x, 0) = _ => assert (Ex : u' = x) by congruence end. rewrite Ex. clear - W. destruct (negb _); exact W. }
  destruct (attr =? BK_PHASE). { destruct (negb _); apply (K _ E); reflexivity. }
  destruct (attr =? BK_PHASE_WRAP). { apply (K _ E). reflexivity. }
  destruct (attr =? BK_PERIOD). { destruct (abs32 value); cbn [bind] in E; [|discriminate]. apply (K _ E). reflexivity. }
  destruct (attr =? BK_VOLUME). { apply (K _ E). reflexivity. }
  destruct (_ && _). { destruct (aset _ _ _); cbn [bind] in E; [|discriminate]. apply (K _ E). reflexivity. }
  destruct (attr =? BK_MUTE). { apply (K _ E). reflexivity. }
  destruct (attr =? BK_SAMPLE_REPEAT). { apply (K _ E). reflexivity. }
  destruct (attr =? BK_SAMPLE_PERIOD). { destruct (abs32 value); cbn [bind] in E; [|discriminate]. apply (K _ E). reflexivity. }
  destruct (attr =? BK_SAMPLE_IMMED_RELEASE). { apply (K _ E). reflexivity. }
  destruct (attr =? BK_FLAG_RELEASE).
  { destruct (un_sustain u); [|apply (K _ E); reflexivity]. destruct (_ && _); [|apply (K _ E); reflexivity].
    destruct (_ >? _); [apply (K _ E); reflexivity|]. destruct (chk32 _); cbn [bind] in E; [|discriminate]. apply (K _ E). reflexivity. }
  assert (u' = u) as -> by congruence. exact H.
Qed.

Lemma try_counted u data type dispose u' r : BKUnitTrySetData u data type dispose = Ok (u', r) -> counted u -> counted u'.
Proof.
  unfold counted, BKUnitTrySetData. intros E H. cbv zeta in E.
  assert (K : forall x c, Ok (x, c) = Ok (u', r) -> 1 <= ph_count (un_phase x) -> 1 <= ph_count (un_phase u')).
  { intros x c Ex Ec. assert (u' = x) as -> by congruence. exact Ec. }
  destruct (un_ctx u); [|apply (K _ _ E); exact H].
  destruct (type =? BK_WAVEFORM).
  { destruct (if dispose then None else data) as [d|].
    - destruct (Z.geb_spec (w_numFrames d) 2) as [G|G]; [|apply (K _ _ E); exact H]. apply (K _ _ E). ucbn.
      unfold BKMin, BK_WAVE_MAX_LENGTH. destruct (_ <? _); lia.
    - destruct (_ =? _); apply (K _ _ E); exact H. }
  destruct (type =? BK_SAMPLE).
  { destruct (if dispose then None else data) as [d|].
    - destruct (_ && _); [apply (K _ _ E); exact H|]. destruct (_ <? _); [apply (K _ _ E); exact H|].
      destruct (abs32 _); cbn [bind] in E; [|discriminate]. apply (K _ _ E). ucbn. lia.
    - destruct (_ =? _); apply (K _ _ E); exact H. }
  apply (K _ _ E). exact H.
Qed.

Lemma set_data_counted u type data u' r : BKUnitSetData u type data = Ok (u', r) -> counted u -> counted u'.
Proof.
  unfold BKUnitSetData. intros E H. apply bind_ok in E. destruct E as ([u1 r1] & E1 & E). apply try_counted in E1; [|exact H].
  destruct (r1 =? 0); [assert (u' = unit_data_state u1 data) as -> by congruence; exact E1|].
  destruct (_ || _); [assert (u' = set_waveform u1 0) as -> by congruence|assert (u' = u1) as -> by congruence]; exact E1.
Qed.

Lemma callback_counted dispose u u' r : BKUnitSampleDataStateCallback dispose u = Ok (u', r) -> counted u -> counted u'.
Proof.
  unfold BKUnitSampleDataStateCallback. intros E H. destruct (_ =? _); [apply try_counted in E; assumption|].
  destruct (_ =? _); [apply try_counted in E; assumption|]. assert (u' = u) as -> by congruence. exact H.
Qed.

Lemma range_counted u a b u' : BKUnitUpdateSampleRange u a b = Ok u' -> counted u -> counted u'.
Proof.
  unfold BKUnitUpdateSampleRange. intros E H. cbv zeta in E. destruct (sm_data _); [|assert (u' = u) as -> by congruence; exact H].
  repeat (match type of E with bind _ _ = _ => apply bind_ok in E; destruct E as (? & _ & E) end).
  match type of E with Ok ?x = _ => assert (Ex : u' = x) by congruence end. rewrite Ex. exact H.
Qed.
Lemma sustain_counted u a b u' : BKUnitUpdateSampleSustainRange u a b = Ok u' -> counted u -> counted u'.
Proof.
  unfold BKUnitUpdateSampleSustainRange. intros E H. cbv zeta in E. destruct (sm_data _); [|assert (u' = u) as -> by congruence; exact H].
  repeat (match type of E with bind _ _ = _ => apply bind_ok in E; destruct E as (? & _ & E) end).
  destruct (_ <? _) in E;
  (match type of E with Ok ?x = _ => assert (Ex : u' = x) by congruence end; rewrite Ex; exact H).
Qed.

Lemma ptr_counted u attr ptr u' r : BKUnitSetPtr u attr ptr = Ok (u', r) -> counted u -> counted u'.
Proof.
  unfold BKUnitSetPtr. intros E H.
  assert (K : forall x c, Ok (x, c) = Ok (u', r) -> counted x -> counted u').
  { intros x c Ex Ec. assert (u' = x) as -> by congruence. exact Ec. }
  destruct (attr =? BK_SAMPLE_CALLBACK). { destruct ptr; try discriminate; apply (K _ _ E); exact H. }
  destruct (_ || _).
  { apply bind_ok in E. destruct E as (data & _ & E). apply bind_ok in E. destruct E as ([u1 r1] & E1 & E).
    apply set_data_counted in E1; [|exact H]. destruct (r1 <? 0); apply (K _ _ E); exact E1. }
  destruct (attr =? BK_SAMPLE_RANGE).
  { destruct (negb _); [apply (K _ _ E); exact H|]. apply bind_ok in E. destruct E as ([a b] & _ & E).
    apply bind_ok in E. destruct E as (u1 & E1 & E). apply bind_ok in E. destruct E as (u2 & E2 & E).
    apply range_counted in E1; [|exact H]. apply sustain_counted in E2; [|exact E1]. apply (K _ _ E). exact E2. }
  destruct (attr =? BK_SAMPLE_SUSTAIN_RANGE).
  { destruct (negb _); [apply (K _ _ E); exact H|]. apply bind_ok in E. destruct E as ([a b] & _ & E).
    apply bind_ok in E. destruct E as (u1 & E1 & E). apply sustain_counted in E1; [|exact H]. apply (K _ _ E). exact E1. }
  apply (K _ _ E). exact H.
Qed.

Lemma clear_counted u u' : BKUnitClear u = Ok u' -> counted u -> counted u'.
Proof.
  unfold BKUnitClear. intros E H. apply bind_ok in E. destruct E as ([u1 r1] & E1 & E). apply bind_ok in E. destruct E as ([u2 r2] & E2 & E).
  apply set_data_counted in E1; [|exact H]. apply set_data_counted in E2; [|exact E1]. cbv zeta in E.
  match type of E with Ok ?x = _ => assert (Ex : u' = x) by congruence end. rewrite Ex. exact E2.
Qed.
Lemma reset_counted u u' : BKUnitReset u = Ok u' -> counted u -> counted u'.
Proof.
  unfold BKUnitReset. intros E H. apply bind_ok in E. destruct E as (u1 & E1 & E). apply clear_counted in E1; [|exact H].
  match type of E with Ok ?x = _ => assert (Ex : u' = x) by congruence end. rewrite Ex. exact E1.
Qed.

Lemma channels_counted n : forall i fuel u op ow time t u' t' l, wave_channels n i fuel u op ow time t = Ok (u', t', l) -> counted u -> counted u'.
Proof.
  induction n as [|n IH]; intros i fuel u op ow time t u' t' l E H; cbn [wave_channels] in E.
  { assert (u' = u) as -> by congruence. exact H. }
  apply bind_ok in E. destruct E as (v & _ & E). destruct (v =? 0).
  - apply bind_ok in E. destruct E as ([[u1 t1] l1] & E1 & E). assert (u' = u1) as -> by congruence. apply (IH _ _ _ _ _ _ _ _ _ _ E1 H).
  - apply bind_ok in E. destruct E as (lp & _ & E). apply bind_ok in E. destruct E as ([[[[t0 ph] wc] lp'] pulses] & _ & E). cbv zeta in E.
    apply bind_ok in E. destruct E as (last & _ & E). apply bind_ok in E. destruct E as ([[u1 t1] l1] & E1 & E).
    assert (u' = u1) as -> by congruence. apply (IH _ _ _ _ _ _ _ _ _ _ E1). exact H.
Qed.

Lemma run_counted fuel u t u' l : BKUnitRun fuel u t = Ok (u', l) -> counted u -> counted u'.
Proof.
  unfold BKUnitRun. intros E H. destruct (un_ctx u) as [n|]; [|discriminate]. cbv zeta in E.
  apply bind_ok in E. destruct E as ([[u1 t1] l1] & E1 & E). enough (K : counted u1).
  { match type of E with Ok (?x, _) = _ => assert (Ex : u' = x) by congruence end. rewrite Ex. exact K. }
  clear E.
  assert (Same : forall x y, Ok (u, x, y) = Ok (u1, t1, l1) -> counted u1) by (intros x y Ex; assert (u1 = u) as -> by congruence; exact H).
  destruct (_ =? 0); [apply (Same _ _ E1)|]. destruct (_ && _).
  - unfold BKUnitRunWaveform in E1. destruct (negb _); [apply (Same _ _ E1)|]. apply (channels_counted _ _ _ _ _ _ _ _ _ _ _ E1 H).
  - destruct (_ =? _); [|apply (Same _ _ E1)]. unfold BKUnitRunSample in E1. destruct (negb _); [apply (Same _ _ E1)|].
    apply bind_ok in E1. destruct E1 as (d & _ & E1). apply bind_ok in E1. destruct E1 as (len & _ & E1).
    destruct (_ <? _); [apply (Same _ _ E1)|]. apply bind_ok in E1. destruct E1 as ([[u2 t2] l2] & E2 & E1).
    assert (u1 = u2) as -> by congruence. apply sample_loop_frame in E2; [|apply s32_range].
    destruct E2 as ((_ & _ & _ & _ & _ & _ & _ & _ & _ & _ & _ & F & _) & _). unfold counted in *. lia.
Qed.

Lemma attach_counted u n t : counted u -> counted (fst (BKUnitAttach u n t)).
Proof. unfold BKUnitAttach. destruct (un_ctx u); intros H; exact H. Qed.
Lemma detach_counted u : counted u -> counted (BKUnitDetach u).
Proof. unfold BKUnitDetach. destruct (un_ctx u); intros H; exact H. Qed.

(** A unit a track can use. *)
Definition unit_good (u : bkunit) : Prop := unit_safe u /\ counted u.

Lemma good_attr u attr value : unit_good u -> in_s32 value = true -> uop_careful u (UAttr attr value) ->
  exists u' r, BKUnitSetAttr u attr value = Ok (u', r) /\ unit_good u'.
Proof.
  intros (G & C) V U. destruct (attr_safe u attr value G V U) as (u' & r & E & G'). exists u', r. split; [exact E|].
  split; [exact G'|]. apply (attr_counted _ _ _ _ _ E C).
Qed.
