(** Tracks which differ only in unit volumes that are going to be replaced: every call does
    the same to them. *)
From Verif Require Import CInt CIntFacts TimeModel Kernels BufferModel DataModel UnitModel InterpModel ToneModel SequenceModel TrackModel ContextModel.
Ltac Zify.zify_post_hook ::= idtac.

(** Both computations fail in the same way, or their results are related. *)
Definition rrel {A B} (P : A -> B -> Prop) (r : res A) (r' : res B) : Prop :=
  match r, r' with Ok a, Ok b => P a b | Err e, Err e' => e = e' | _, _ => False end.
Lemma rrel_bind {A B A' B'} (P : A -> A' -> Prop) (Q : B -> B' -> Prop) r r' k k' :
  rrel P r r' -> (forall a a', P a a' -> rrel Q (k a) (k' a')) -> rrel Q (bind r k) (bind r' k').
Proof. destruct r, r'; cbn; intros H K; try contradiction; [apply K; exact H|exact H]. Qed.
Lemma rrel_same {A B B'} (Q : B -> B' -> Prop) (r : res A) k k' :
  (forall a, rrel Q (k a) (k' a)) -> rrel Q (bind r k) (bind r k').
Proof. destruct r; cbn; auto. Qed.
Lemma rrel_eq {A} (P : A -> A -> Prop) r r' : (forall a, P a a) -> r = r' -> rrel P r r'.
Proof. intros H ->. destruct r'; cbn; auto. Qed.

(** ** Units *)
Section Units.
Context (C : option Z) (V V' : list Z).
Definition U (u u' : bkunit) : Prop := u' = set_volume u V' /\ un_volume u = V /\ un_ctx u = C.
Definition UR (p p' : bkunit * Z) : Prop := U (fst p) (fst p') /\ snd p = snd p'.

Lemma U_in u u' : U u u' -> exists ct ti pe lp wa du mu ph sm su ju re,
  u = mk_unit ct ti pe lp wa du V mu ph sm su ju re /\ u' = mk_unit ct ti pe lp wa du V' mu ph sm su ju re /\ ct = C.
Proof. intros (-> & H1 & H2). destruct u. cbn in *. subst. repeat eexists. Qed.

Ltac ured := cbn [un_ctx un_time un_period un_lastPulse un_waveform un_duty un_volume un_mute un_phase un_sample un_sustain un_jump un_release
  set_ctx set_time set_period set_lastPulse set_waveform set_duty set_volume set_mute set_ph set_sm set_flags set_phase unit_data_state bind fst snd].
Ltac uclose := split; [reflexivity|split; [reflexivity|first [assumption|reflexivity]]].
Ltac uend := cbn [rrel]; first [reflexivity | (split; [uclose|reflexivity]) | uclose].
Ltac usplit := repeat (ured; match goal with
  | |- rrel _ (match ?b with _ => _ end) _ => destruct b
  | |- rrel _ (bind (match ?b with _ => _ end) _) _ => destruct b
  | |- rrel _ (bind (bind ?b _) _) _ => destruct b
  | |- rrel _ (bind ?b _) _ => destruct b
  | |- context [if ?b then _ else _] => destruct b
  end); ured; try uend.
Ltac uin H := destruct (U_in _ _ H) as (? & ? & ? & ? & ? & ? & ? & ? & ? & ? & ? & ? & -> & -> & ?).

Lemma U_set_attr u u' attr value : U u u' -> attr <> BK_VOLUME -> (BK_VOLUME_0 <=? attr) && (attr <=? BK_VOLUME_7) = false ->
  rrel UR (BKUnitSetAttr u attr value) (BKUnitSetAttr u' attr value).
Proof.
  intros H N1 N2. uin H. unfold BKUnitSetAttr. cbv zeta. rewrite N2. replace (attr =? BK_VOLUME) with false by (symmetry; apply Z.eqb_neq; exact N1). usplit.
Qed.
Lemma U_try_data u u' d ty b : U u u' -> rrel UR (BKUnitTrySetData u d ty b) (BKUnitTrySetData u' d ty b).
Proof. intros H. uin H. unfold BKUnitTrySetData. cbv zeta. usplit. Qed.
Lemma U_data_state u u' d : U u u' -> U (unit_data_state u d) (unit_data_state u' d).
Proof. intros H. uin H. uend. Qed.
Lemma U_waveform u u' w : U u u' -> U (set_waveform u w) (set_waveform u' w).
Proof. intros H. uin H. uend. Qed.
Lemma U_fields u u' : U u u' -> un_ctx u' = un_ctx u /\ un_time u' = un_time u /\ un_period u' = un_period u /\ un_lastPulse u' = un_lastPulse u /\
  un_waveform u' = un_waveform u /\ un_duty u' = un_duty u /\ un_mute u' = un_mute u /\ un_phase u' = un_phase u /\ un_sample u' = un_sample u /\ un_sustain u' = un_sustain u /\ un_jump u' = un_jump u /\ un_release u' = un_release u.
Proof. intros H. uin H. repeat split; reflexivity. Qed.
Lemma U_set_data u u' ty d : U u u' -> rrel UR (BKUnitSetData u ty d) (BKUnitSetData u' ty d).
Proof.
  intros H. unfold BKUnitSetData. apply (rrel_bind UR); [apply U_try_data; exact H|]. intros (x & r) (x' & r') (X & E). cbn [fst snd] in X, E. subst r'.
  destruct (U_fields _ _ X) as (_ & _ & _ & _ & -> & _). destruct (r =? 0); [split; [apply U_data_state; exact X|reflexivity]|].
  destruct (_ || _); split; try reflexivity; [apply U_waveform|]; exact X.
Qed.
Lemma U_callback b u u' : U u u' -> rrel UR (BKUnitSampleDataStateCallback b u) (BKUnitSampleDataStateCallback b u').
Proof.
  intros H. unfold BKUnitSampleDataStateCallback. destruct (U_fields _ _ H) as (_ & _ & _ & _ & -> & _ & _ & _ & -> & _).
  destruct (_ =? _); [apply U_try_data; exact H|]. destruct (_ =? _); [apply U_try_data; exact H|]. split; [exact H|reflexivity].
Qed.
Lemma U_range u u' a b : U u u' -> rrel U (BKUnitUpdateSampleRange u a b) (BKUnitUpdateSampleRange u' a b).
Proof. intros H. uin H. unfold BKUnitUpdateSampleRange. cbv zeta. usplit. Qed.
Lemma U_sustain u u' a b : U u u' -> rrel U (BKUnitUpdateSampleSustainRange u a b) (BKUnitUpdateSampleSustainRange u' a b).
Proof. intros H. uin H. unfold BKUnitUpdateSampleSustainRange. cbv zeta. usplit. Qed.
Lemma U_set_ptr u u' attr p : U u u' -> rrel UR (BKUnitSetPtr u attr p) (BKUnitSetPtr u' attr p).
Proof.
  intros H. unfold BKUnitSetPtr. destruct (attr =? BK_SAMPLE_CALLBACK).
  { uin H. usplit. }
  destruct (_ || _).
  { apply rrel_same. intros d. apply (rrel_bind UR); [apply U_set_data; exact H|]. intros (x & r) (x' & r') (X & E). cbn [fst snd] in X, E. subst r'. destruct (r <? 0); split; try reflexivity; exact X. }
  pose proof (U_fields _ _ H) as (_ & _ & _ & _ & EW & _). rewrite EW.
  destruct (attr =? BK_SAMPLE_RANGE).
  { destruct (negb _); [split; [exact H|reflexivity]|]. apply rrel_same. intros (a & b). apply (rrel_bind U); [apply U_range; exact H|]. intros x x' X. apply (rrel_bind U); [apply U_sustain; exact X|]. intros y y' Y. split; [exact Y|reflexivity]. }
  destruct (attr =? BK_SAMPLE_SUSTAIN_RANGE).
  { destruct (negb _); [split; [exact H|reflexivity]|]. apply rrel_same. intros (a & b). apply (rrel_bind U); [apply U_sustain; exact H|]. intros y y' Y. split; [exact Y|reflexivity]. }
  split; [exact H|reflexivity].
Qed.
Lemma U_clear u u' : U u u' -> rrel U (BKUnitClear u) (BKUnitClear u').
Proof.
  intros H. unfold BKUnitClear. apply (rrel_bind UR); [apply U_set_data; exact H|]. intros (x & r) (x' & r') (X & _). cbn [fst] in X.
  apply (rrel_bind UR); [apply U_set_data; exact X|]. intros (y & s) (y' & s') (Y & _). cbn [fst] in Y. uin Y. cbv zeta. ured. destruct (0 >? _); uend.
Qed.
Lemma U_reset u u' : U u u' -> rrel U (BKUnitReset u) (BKUnitReset u').
Proof. intros H. unfold BKUnitReset. apply (rrel_bind U); [apply U_clear; exact H|]. intros y y' Y. uin Y. uend. Qed.
Lemma U_end u u' t : U u u' -> U (BKUnitEnd u t) (BKUnitEnd u' t).
Proof. intros H. uin H. uend. Qed.

(** Running looks only at the volumes of the channels of the context. *)
Definition agree (n : Z) : Prop := forall i, 0 <= i < n -> aget V i = aget V' i.
Lemma wave_loop_U fuel : forall u u' volume e time ph wc lp, U u u' -> wave_loop fuel u' volume e time ph wc lp = wave_loop fuel u volume e time ph wc lp.
Proof.
  induction fuel as [|fuel IH]; intros u u' volume e time ph wc lp H; cbn [wave_loop]; [reflexivity|]. destruct (time <? e); [|reflexivity].
  assert (E : wave_step u' ph wc = wave_step u ph wc) by (destruct H as (-> & _); reflexivity). rewrite E. destruct (wave_step u ph wc) as [[[pu ph'] wc']|]; [|reflexivity].
  destruct (U_fields _ _ H) as (_ & _ & -> & _).
  cbn [bind]. destruct (pulse_delta pu volume lp) as [[de cd]|]; [|reflexivity]. cbn [bind]. rewrite (IH _ _ volume e _ ph' wc' de H). reflexivity.
Qed.
Lemma run_wave_U fuel u u' volume e time ph wc lp : U u u' -> run_wave fuel u' volume e time ph wc lp = run_wave fuel u volume e time ph wc lp.
Proof. intros H. unfold run_wave. rewrite (wave_loop_U fuel u u') by exact H. destruct (U_fields _ _ H) as (_ & _ & _ & _ & -> & _). reflexivity. Qed.
Definition UT (p p' : bkunit * Z * list (list (Z * Z))) : Prop := U (fst (fst p)) (fst (fst p')) /\ snd (fst p) = snd (fst p') /\ snd p = snd p'.
Lemma wave_channels_U n : forall i fuel u u' op ow time e, U u u' -> (forall j, i <= j < i + Z.of_nat n -> aget V j = aget V' j) ->
  rrel UT (wave_channels n i fuel u op ow time e) (wave_channels n i fuel u' op ow time e).
Proof.
  induction n as [|n IH]; intros i fuel u u' op ow time e H A; cbn [wave_channels]; [repeat split; try reflexivity; apply H|].
  assert (EV : aget (un_volume u') i = aget (un_volume u) i).
  { destruct H as (-> & E & _). cbn [set_volume un_volume]. rewrite E. symmetry. apply A. lia. }
  rewrite EV. apply rrel_same. intros volume. destruct (volume =? 0).
  - apply (rrel_bind UT); [apply IH; [exact H|]; intros j Hj; apply A; lia|]. intros [[x t] l] [[x' t'] l'] (X & E1 & E2). cbn [fst snd] in *. subst. repeat split; try reflexivity; apply X.
  - destruct (U_fields _ _ H) as (_ & -> & _ & -> & _). apply rrel_same. intros lp. rewrite (run_wave_U fuel u u') by exact H. apply rrel_same. intros [[[[t ph] wc] lp'] pulses].
    assert (H2 : forall a b, U (set_ph u (p_wrapCount (p_phase (un_phase u) a) b)) (set_ph u' (p_wrapCount (p_phase (un_phase u') a) b))) by (intros a b; uin H; uend).
    specialize (H2 ph wc). cbv zeta. destruct (U_fields _ _ H2) as (_ & _ & _ & -> & _). apply rrel_same. intros last.
    assert (H3 : U (set_lastPulse (set_ph u (p_wrapCount (p_phase (un_phase u) ph) wc)) last) (set_lastPulse (set_ph u' (p_wrapCount (p_phase (un_phase u') ph) wc)) last)) by (uin H2; uend).
    apply (rrel_bind UT); [apply IH; [exact H3|]; intros j Hj; apply A; lia|]. intros [[x t1] l] [[x' t1'] l'] (X & E1 & E2). cbn [fst snd] in *. subst. repeat split; try reflexivity; apply X.
Qed.
Lemma sample_channels_U n : forall i u u' idx, U u u' -> (forall j, i <= j < i + Z.of_nat n -> aget V j = aget V' j) ->
  sample_channels n i u' idx = sample_channels n i u idx.
Proof.
  induction n as [|n IH]; intros i u u' idx H A; cbn [sample_channels]; pose proof (U_fields _ _ H) as (_ & _ & _ & EL & _ & _ & _ & _ & ES & _); [rewrite EL; reflexivity|]. rewrite EL, ES.
  assert (EV : aget (un_volume u') i = aget (un_volume u) i).
  { destruct H as (-> & E & _). cbn [set_volume un_volume]. rewrite E. symmetry. apply A. lia. }
  rewrite EV. destruct (sm_frames (un_sample u)) as [[fr base]|]; [|reflexivity]. destruct (aget (un_volume u) i); [|reflexivity]. cbn [bind].
  destruct (aget fr _); [|reflexivity]. cbn [bind]. destruct (aget (un_lastPulse u) i); [|reflexivity]. cbn [bind]. destruct (pulse_delta _ _ _) as [[de cd]|]; [|reflexivity]. cbn [bind].
  destruct (aset (un_lastPulse u) i de) as [la|]; [|reflexivity]. cbn [bind]. rewrite (IH (i + 1) (set_lastPulse u la) (set_lastPulse u' la)); [reflexivity| |intros j Hj; apply A; lia]. uin H. uend.
Qed.
Lemma sample_loop_U fuel : forall u u' n cb time e, U u u' -> agree n -> rrel UT (sample_loop fuel u n cb time e) (sample_loop fuel u' n cb time e).
Proof.
  induction fuel as [|fuel IH]; intros u u' n cb time e H A; cbn [sample_loop]; (destruct (u32 time <? e); [|repeat split; try reflexivity; apply H]); [reflexivity|]. cbv zeta.
  rewrite (sample_channels_U (Z.to_nat n) 0 u u'); [|exact H|intros j Hj; apply A; lia]. destruct (U_fields _ _ H) as (_ & _ & _ & _ & _ & _ & _ & -> & -> & _).
  apply rrel_same. intros (last & d). apply rrel_same. intros at_.
  apply (rrel_bind U).
  { unfold sample_advance. uin H. cbv zeta. ured. destruct (chk32 _); ured; uend. }
  clear H. intros x x' H. destruct (U_fields _ _ H) as (_ & _ & _ & _ & _ & _ & _ & E1 & E2 & _). rewrite E1, E2.
  apply (rrel_bind (fun p p' : bkunit * bool => U (fst p) (fst p') /\ snd p = snd p')).
  { destruct (_ || _); [|split; [exact H|reflexivity]]. unfold BKUnitResetSample. cbv zeta. rewrite E1, E2. apply rrel_same. intros (p & rd).
    match goal with |- context [let '(phase, mode) := ?X in _] => destruct X as [ph' mode] end. destruct (mode =? 0).
    - uin H. cbn [rrel fst snd]. split; [|reflexivity]. uend.
    - apply rrel_same. intros per. uin H. cbn [rrel fst snd]. split; [|reflexivity]. uend. }
  clear H x x' E1 E2. intros (x & ha) (x' & ha') (H & E). cbn [fst snd] in H, E. subst ha'. destruct ha; [repeat split; try reflexivity; apply H|].
  apply rrel_same. intros nt. apply (rrel_bind UT).
  { apply IH; [|exact A]. unfold sustain_step. cbv zeta. destruct (U_fields _ _ H) as (_ & _ & _ & _ & _ & _ & _ & -> & -> & _). destruct cb; [|exact H]. uin H. ured. repeat match goal with |- context [if ?b then _ else _] => destruct b end; ured; uend. }
  intros [[y t] l] [[y' t'] l'] (Y & F1 & F2). cbn [fst snd] in *. subst. repeat split; try reflexivity; apply Y.
Qed.
Lemma U_run fuel u u' e : U u u' -> (forall n, C = Some n -> agree n) -> rrel (fun p p' => U (fst p) (fst p') /\ snd p = snd p') (BKUnitRun fuel u e) (BKUnitRun fuel u' e).
Proof.
  intros H A. unfold BKUnitRun. pose proof (U_fields _ _ H) as (EC & ET & EP & _ & EW & _ & EM & _ & ES & Esu & _ & Ere). rewrite EC, EP, EW, ET. destruct (un_ctx u) as [n|] eqn:ECu; [|reflexivity].
  assert (An : agree n) by (apply A; rewrite <- ECu; symmetry; apply H). cbv zeta.
  apply (rrel_bind UT).
  - destruct (_ =? 0); [repeat split; try reflexivity; apply H|]. destruct (_ && _).
    + unfold BKUnitRunWaveform. rewrite EM. destruct (U_fields _ _ H) as (_ & _ & _ & _ & _ & _ & _ & -> & _). destruct (negb _); [repeat split; try reflexivity; apply H|].
      apply wave_channels_U; [exact H|]. intros j Hj. apply An. lia.
    + destruct (_ =? _); [|repeat split; try reflexivity; apply H]. unfold BKUnitRunSample. cbv zeta. rewrite EM, ES, Esu, Ere, ET. destruct (negb _); [repeat split; try reflexivity; apply H|].
      apply rrel_same. intros d. apply rrel_same. intros len. destruct (len <? 2); [repeat split; try reflexivity; apply H|]. apply (rrel_bind UT); [apply sample_loop_U; assumption|].
      intros [[y t] l] [[y' t'] l'] (Y & F1 & F2). cbn [fst snd] in *. subst. repeat split; try reflexivity; apply Y.
  - intros [[y t] l] [[y' t'] l'] (Y & F1 & F2). cbn [fst snd] in *. subst. split; [|reflexivity]. cbn [fst]. uin Y. uend.
Qed.
End Units.
