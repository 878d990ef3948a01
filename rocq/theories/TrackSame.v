(** Calls on tracks which differ only in the volumes of their units. *)
From Verif Require Import CInt CIntFacts TimeModel Kernels BufferModel DataModel UnitModel InterpModel ToneModel SequenceModel TrackModel ContextModel ResetSame.
Ltac Zify.zify_post_hook ::= idtac.

Section Tracks.
Context (C : option Z) (pan fv : bool) (V V' : list Z).
Local Notation U := (U C V V').
Local Notation UR := (UR C V V').
(** [pan] is the flag of stereo panning; when [fv] is set, new volumes are going to be set. *)
Definition T (t t' : track) : Prop :=
  U (tr_unit t) (tr_unit t') /\ t' = t_unit t (tr_unit t') /\ has t FPan = pan /\ (fv = true -> has t FVolume = true).
Definition TR {A} (p p' : track * A) : Prop := T (fst p) (fst p') /\ snd p = snd p'.

Lemma T_in t t' : T t t' -> exists u u' a2 a3 fl a5 a6 a7 a8 a9 a10 a11 a12 a13 a14 a15 a16 a17 a18 a19 a20 a21 a22 a23 a24 a25,
  t = mk_track u a2 a3 fl a5 a6 a7 a8 a9 a10 a11 a12 a13 a14 a15 a16 a17 a18 a19 a20 a21 a22 a23 a24 a25 /\
  t' = mk_track u' a2 a3 fl a5 a6 a7 a8 a9 a10 a11 a12 a13 a14 a15 a16 a17 a18 a19 a20 a21 a22 a23 a24 a25 /\
  U u u' /\ tf_pan fl = pan /\ (fv = true -> tf_volume fl = true).
Proof. intros (H1 & H2 & H3 & H4). destruct t, t'. cbn in *. unfold t_unit in H2. cbn in H2. rewrite H2. repeat eexists; first [reflexivity|eassumption|idtac]; apply H1. Qed.
Lemma T_mk u u' a2 a3 fl a5 a6 a7 a8 a9 a10 a11 a12 a13 a14 a15 a16 a17 a18 a19 a20 a21 a22 a23 a24 a25 :
  U u u' -> tf_pan fl = pan -> (fv = true -> tf_volume fl = true) ->
  T (mk_track u a2 a3 fl a5 a6 a7 a8 a9 a10 a11 a12 a13 a14 a15 a16 a17 a18 a19 a20 a21 a22 a23 a24 a25)
    (mk_track u' a2 a3 fl a5 a6 a7 a8 a9 a10 a11 a12 a13 a14 a15 a16 a17 a18 a19 a20 a21 a22 a23 a24 a25).
Proof. intros H1 H2 H3. split; [exact H1|split; [reflexivity|split; assumption]]. Qed.

Ltac tred := cbn [tr_unit tr_rate tr_dataId tr_flags tr_arpDiv tr_instrDiv tr_effDiv tr_waveform tr_duty tr_samplePitch tr_master tr_volume tr_panning
  tr_curNote tr_note tr_pitch tr_tremolo tr_tremoloDelta tr_tremoloSteps tr_vibrato tr_vibratoDelta tr_vibratoSteps tr_arpeggio tr_instr tr_istate
  t_unit t_rate t_dataId t_flags t_arpDiv t_instrDiv t_effDiv t_waveform t_duty t_samplePitch t_master t_volume t_panning
  t_curNote t_note t_pitch t_tremolo t_tremoloDelta t_tremoloSteps t_vibrato t_vibratoDelta t_vibratoSteps t_arpeggio t_instr t_istate
  has put fget fset tf_instr tf_arp tf_pan tf_tri tf_ignore tf_volume tf_note tf_duty tf_volSlide tf_panSlide tf_porta tf_tremolo tf_vibrato bind fst snd].
Ltac tin H := let q0 := fresh "q" in let q1 := fresh "q" in let q2 := fresh "q" in let q3 := fresh "q" in let q4 := fresh "q" in let q5 := fresh "q" in let q6 := fresh "q" in let q7 := fresh "q" in let q8 := fresh "q" in let q9 := fresh "q" in let q10 := fresh "q" in let q11 := fresh "q" in let q12 := fresh "q" in let q13 := fresh "q" in let q14 := fresh "q" in let q15 := fresh "q" in let q16 := fresh "q" in let q17 := fresh "q" in let q18 := fresh "q" in let q19 := fresh "q" in let q20 := fresh "q" in let q21 := fresh "q" in let q22 := fresh "q" in let q23 := fresh "q" in let q24 := fresh "q" in let q25 := fresh "q" in
  destruct (T_in _ _ H) as (q0 & q1 & q2 & q3 & q4 & q5 & q6 & q7 & q8 & q9 & q10 & q11 & q12 & q13 & q14 & q15 & q16 & q17 & q18 & q19 & q20 & q21 & q22 & q23 & q24 & q25 & -> & -> & ? & ? & ?).
Ltac tmk := apply T_mk; [first [assumption|apply U_data_state; assumption]|first [assumption|reflexivity]|first [assumption|intros _; reflexivity]].
Ltac tend := cbn [rrel]; first [reflexivity | (split; [tmk|reflexivity]) | tmk | (split; [assumption|reflexivity]) | assumption].
Ltac ur1 f := match goal with H : ResetSame.U _ _ _ ?a ?b |- context [f ?b] => replace (f b) with (f a) by (destruct H as (-> & _); reflexivity) end.
Ltac ureads := repeat first [ur1 un_ctx | ur1 un_waveform | ur1 un_duty | ur1 un_phase | ur1 un_sample | ur1 un_sustain | ur1 un_mute | ur1 un_time].
Ltac tsplit := repeat (tred; ureads; match goal with
  | |- rrel _ (bind (bind (bind ?b _) _) _) (bind (bind (bind ?b _) _) _) => destruct b
  | |- rrel _ (bind (bind ?b _) _) (bind (bind ?b _) _) => destruct b
  | |- rrel _ (bind ?b _) (bind ?b _) => destruct b
  | |- rrel _ (match ?b with _ => _ end) _ => destruct b
  | |- rrel _ (bind (match ?b with _ => _ end) _) _ => destruct b
  | |- rrel _ (bind (bind (match ?b with _ => _ end) _) _) _ => destruct b
  | |- context [if ?b then _ else _] => destruct b
  end); tred; ureads; try tend.

Lemma T_unit_attr t t' attr value : T t t' -> attr <> BK_VOLUME -> (BK_VOLUME_0 <=? attr) && (attr <=? BK_VOLUME_7) = false ->
  rrel T (unit_attr t attr value) (unit_attr t' attr value).
Proof.
  intros H N1 N2. tin H. unfold unit_attr. tred. apply (rrel_bind UR); [apply U_set_attr; assumption|]. intros (x1 & r) (x2 & r') (X & E). cbn [fst snd] in *. tend.
Qed.
Ltac tua := apply T_unit_attr; [assumption|discriminate|reflexivity].
Lemma T_slot t t' slot : T t t' -> slot_value t' slot = slot_value t slot /\ slot_sequence t' slot = slot_sequence t slot /\ some_seq t' slot = some_seq t slot /\ track_note t' = track_note t /\ track_levels t' = track_levels t.
Proof. intros H. tin H. repeat split; reflexivity. Qed.
Lemma T_unit_note t t' : T t t' -> rrel T (BKTrackUpdateUnitNote t) (BKTrackUpdateUnitNote t').
Proof.
  intros H. unfold BKTrackUpdateUnitNote. destruct (T_slot t t' 0 H) as (_ & _ & _ & -> & _).
  assert (EC : un_ctx (tr_unit t') = un_ctx (tr_unit t) /\ un_phase (tr_unit t') = un_phase (tr_unit t) /\ tr_waveform t' = tr_waveform t /\ tr_rate t' = tr_rate t /\ tr_samplePitch t' = tr_samplePitch t).
  { tin H. tred. ureads. repeat split; reflexivity. }
  destruct EC as (-> & -> & -> & -> & ->). destruct (un_ctx (tr_unit t)); [|exact H]. apply rrel_same. intros note. destruct (negb _).
  - apply rrel_same. intros period. cbv zeta. destruct (_ =? 0); [reflexivity|]. tua.
  - apply rrel_same. intros n2. apply rrel_same. intros period. tua.
Qed.
Lemma T_unit_duty t t' : T t t' -> rrel T (BKTrackUpdateUnitDutyCycle t) (BKTrackUpdateUnitDutyCycle t').
Proof.
  intros H. unfold BKTrackUpdateUnitDutyCycle. destruct (T_slot t t' BK_SEQUENCE_DUTY_CYCLE H) as (-> & _).
  assert (EC : has t' FInstr = has t FInstr /\ tr_duty t' = tr_duty t) by (tin H; split; reflexivity). destruct EC as (-> & ->).
  apply rrel_same. intros d. tua.
Qed.
Lemma T_ignore t t' : T t t' -> T (BKTrackUpdateIgnoreVolume t) (BKTrackUpdateIgnoreVolume t').
Proof. intros H. unfold BKTrackUpdateIgnoreVolume. tin H. tred. tmk. Qed.
Lemma T_arp_set t t' l n : T t t' -> rrel T (BKTrackArpeggioSetNotes t l n) (BKTrackArpeggioSetNotes t' l n).
Proof. intros H. unfold BKTrackArpeggioSetNotes. cbv zeta. tin H. tsplit. Qed.
Lemma T_arp_tick t t' : T t t' -> rrel T (BKTrackArpeggioTick t) (BKTrackArpeggioTick t').
Proof. intros H. unfold BKTrackArpeggioTick. cbv zeta. tin H. tsplit. Qed.
Lemma T_put t t' k b : T t t' -> k <> FPan -> (k = FVolume -> b = true) -> T (put t k b) (put t' k b).
Proof. intros H N1 N2. tin H. destruct k; tred; try tmk; [contradiction|]. rewrite N2 by reflexivity. tmk. Qed.
Ltac tput := apply T_put; [assumption|discriminate|first [discriminate|intros _; reflexivity]].
Lemma T_instr_flags t t' all : T t t' -> T (BKTrackInstrumentUpdateFlags t all) (BKTrackInstrumentUpdateFlags t' all).
Proof.
  assert (S1 : forall x x' slot k, T x x' -> k <> FPan -> T (if some_seq x slot then put x k true else x) (if some_seq x' slot then put x' k true else x')).
  { intros x x' slot k X N. destruct (T_slot x x' slot X) as (_ & _ & -> & _). destruct (some_seq x slot); [|exact X]. apply T_put; [exact X|exact N|reflexivity]. }
  intros H. unfold BKTrackInstrumentUpdateFlags. destruct all; [repeat (apply T_put; [|discriminate|reflexivity]); exact H|]. cbv zeta.
  repeat (apply S1; [|discriminate]). exact H.
Qed.
Lemma T_phase_plain fuel t t' ph : T t t' -> rrel TR (set_phase_plain fuel t ph) (set_phase_plain fuel t' ph).
Proof. intros H. unfold set_phase_plain. tin H. tsplit. Qed.
Lemma T_note_mute f t t' : (forall x x' ph, T x x' -> rrel T (f x ph) (f x' ph)) -> T t t' -> rrel T (set_note_mute f t) (set_note_mute f t').
Proof.
  intros F H. unfold set_note_mute. cbv zeta. tin H. tred. apply (rrel_bind T).
  - destruct (tf_instr _); [|tend]. eapply rrel_bind; [apply F; tmk|]. intros x x' X. cbn [rrel]. apply T_instr_flags. exact X.
  - intros x x' X. eapply rrel_bind; [tua|]. intros y y' Y. eapply rrel_bind; [tua|]. intros z z' Hz. tin Hz. tred. tend.
Qed.
Lemma T_set_phase fuel t t' ph : T t t' -> rrel T (track_set_phase fuel t ph) (track_set_phase fuel t' ph).
Proof.
  intros H. unfold track_set_phase. eapply rrel_bind; [apply T_phase_plain; exact H|]. intros (x & r) (x' & r') (X & E). cbn [fst snd] in *. subst r'. destruct r; [|exact X].
  unfold mute_event. apply T_note_mute; [|exact X]. intros y y' p Y. unfold set_phase_inner. eapply rrel_bind; [apply T_phase_plain; exact Y|]. intros (z & r) (z' & r') (Hz & E). cbn [fst snd] in *. subst r'. destruct r; [reflexivity|exact Hz].
Qed.
Lemma T_mute_event fuel t t' : T t t' -> rrel T (mute_event fuel t) (mute_event fuel t').
Proof.
  intros X. unfold mute_event. apply T_note_mute; [|exact X]. intros y y' p Y. unfold set_phase_inner. eapply rrel_bind; [apply T_phase_plain; exact Y|]. intros (z & r) (z' & r') (Hz & E). cbn [fst snd] in *. subst r'. destruct r; [reflexivity|exact Hz].
Qed.
Lemma T_tick_loop fuel n : forall i t t' level, T t t' -> rrel T (track_tick_loop fuel n i t level) (track_tick_loop fuel n i t' level).
Proof.
  induction n as [|n IH]; intros i t t' level H; cbn [track_tick_loop]; [exact H|]. cbv zeta.
  destruct (T_slot t t' i H) as (_ & -> & _). assert (EI : tr_istate t' = tr_istate t) by (tin H; reflexivity). rewrite EI.
  apply rrel_same. intros st. apply rrel_same. intros (st' & r). apply rrel_same. intros sts.
  apply (rrel_bind T); [|intros x x' X; apply IH; exact X].
  destruct (r =? _); [destruct (_ =? 0)|].
  - apply T_set_phase. tin H. tred. tmk.
  - tin H. tred. tend.
  - tin H. tred. tend.
Qed.
Lemma T_instr_tick fuel t t' level : T t t' -> rrel T (BKTrackInstrumentTick fuel t level) (BKTrackInstrumentTick fuel t' level).
Proof.
  intros H. unfold BKTrackInstrumentTick. assert (EI : tr_instr t' = tr_instr t) by (tin H; reflexivity). rewrite EI. destruct (tr_instr t) as [(? & ?)|]; [|reflexivity].
  eapply rrel_bind; [apply T_tick_loop; exact H|]. intros x x' X. apply T_instr_flags. exact X.
Qed.
Lemma T_instr_init t t' : T t t' -> rrel T (BKTrackSetInstrumentInitValues t) (BKTrackSetInstrumentInitValues t').
Proof. intros H. unfold BKTrackSetInstrumentInitValues, slot_sequence. cbv zeta. tin H. tsplit. Qed.
Lemma T_attack fuel t t' : T t t' -> rrel T (BKTrackInstrumentAttack fuel t) (BKTrackInstrumentAttack fuel t').
Proof.
  intros H. unfold BKTrackInstrumentAttack. eapply rrel_bind; [apply T_instr_init; exact H|]. intros x x' X. cbv zeta.
  eapply rrel_bind; [apply T_set_phase; tin X; tred; tmk|]. intros y y' Y. apply T_instr_flags. exact Y.
Qed.
Lemma T_release fuel t t' : T t t' -> rrel T (BKTrackInstrumentRelease fuel t) (BKTrackInstrumentRelease fuel t').
Proof. intros H. unfold BKTrackInstrumentRelease. eapply rrel_bind; [apply T_set_phase; exact H|]. intros y y' Y. apply T_instr_flags. exact Y. Qed.
Lemma T_instr_mute fuel t t' : T t t' -> rrel T (BKTrackInstrumentMute fuel t) (BKTrackInstrumentMute fuel t').
Proof. intros H. unfold BKTrackInstrumentMute. eapply rrel_bind; [apply T_set_phase; exact H|]. intros y y' Y. apply T_instr_flags. exact Y. Qed.
Lemma T_set_note fuel t t' note : T t t' -> rrel T (BKTrackSetNote fuel t note) (BKTrackSetNote fuel t' note).
Proof.
  intros H. unfold BKTrackSetNote. destruct (note >=? 0).
  - cbv zeta. assert (EN : tr_note t' = tr_note t) by (tin H; reflexivity). rewrite EN. apply rrel_same. intros sl.
    assert (H1 : T (t_note t sl) (t_note t' sl)) by (tin H; tred; tmk). revert H1. generalize (t_note t sl) (t_note t' sl). clear H EN. intros x x' H.
    apply (rrel_bind T).
    { assert (EC : tr_curNote x' = tr_curNote x) by (tin H; reflexivity). rewrite EC. destruct (_ =? -1); [|exact H].
      apply (rrel_bind T).
      - assert (H1 : T (t_note x (BKSlideStateHalt (tr_note x) true)) (t_note x' (BKSlideStateHalt (tr_note x') true))) by (tin H; tred; tmk).
        assert (EI : has (t_note x' (BKSlideStateHalt (tr_note x') true)) FInstr = has (t_note x (BKSlideStateHalt (tr_note x) true)) FInstr) by (tin H; reflexivity).
        rewrite EI. clear EI. destruct (has (t_note x (BKSlideStateHalt (tr_note x) true)) FInstr); [apply T_attack|]; exact H1.
      - intros y y' Y. tin Y. tred. tend. }
    clear H x x'. intros x x' H. apply (rrel_bind T).
    { assert (EC : tr_curNote x' = tr_curNote x /\ tr_waveform x' = tr_waveform x) by (tin H; split; reflexivity). destruct EC as (-> & ->). destruct (_ && _); [tua|exact H]. }
    clear H x x'. intros x x' H. eapply rrel_bind; [apply T_unit_attr; [|discriminate|reflexivity]; tin H; tred; tmk|]. intros y y' Y. eapply rrel_bind; [tua|]. intros z z' Hz. cbn [rrel]. tput.
  - destruct (note =? BK_NOTE_RELEASE).
    + cbv zeta. assert (H1 : T (t_curNote t (-1)) (t_curNote t' (-1))) by (tin H; tred; tmk). revert H1. generalize (t_curNote t (-1)) (t_curNote t' (-1)). clear H. intros x x' H.
      apply (rrel_bind T); [|intros y y' Y; cbn [rrel]; tput].
      assert (EC : has x' FInstr = has x FInstr /\ un_sustain (tr_unit x') = un_sustain (tr_unit x)) by (tin H; tred; ureads; split; reflexivity). destruct EC as (-> & ->).
      destruct (has x FInstr); [|destruct (un_sustain _)].
      * eapply rrel_bind; [apply T_release; exact H|]. intros y y' Y. tua.
      * tua.
      * apply T_unit_attr; [|discriminate|reflexivity]. tin H. tred. tmk.
    + destruct (note =? BK_NOTE_MUTE); [|cbn [rrel]; tput]. apply T_note_mute; [|exact H]. intros x x' p X. apply T_set_phase. exact X.
Qed.
Lemma T_state_instr fuel t t' i : T t t' -> rrel T (state_set_instrument fuel t i) (state_set_instrument fuel t' i).
Proof. intros H. unfold state_set_instrument. cbv zeta. tin H. destruct i as [(? & ?)|]; tred; [apply rrel_same; intros; tred|]; tend. Qed.
Lemma T_set_instr fuel t t' i : T t t' -> rrel T (BKTrackSetInstrument fuel t i) (BKTrackSetInstrument fuel t' i).
Proof.
  intros H. unfold BKTrackSetInstrument. apply (rrel_bind T); [|intros x x' X; apply T_instr_flags; exact X].
  assert (EI : tr_instr t' = tr_instr t) by (tin H; reflexivity). rewrite EI. destruct (negb _); [|exact H].
  eapply rrel_bind; [apply T_state_instr; exact H|]. clear H EI. intros x x' H. cbv zeta. destruct i as [i|].
  - assert (H1 : T (t_instrDiv (put x FInstr true) (zero_counter (tr_instrDiv (put x FInstr true)))) (t_instrDiv (put x' FInstr true) (zero_counter (tr_instrDiv (put x' FInstr true))))) by (tin H; tred; tmk).
    eapply rrel_bind; [apply T_instr_init; exact H1|]. intros y y' Y. assert (EC : tr_curNote y' = tr_curNote y) by (tin Y; reflexivity). rewrite EC. destruct (_ =? -1); [apply T_instr_mute|apply T_attack]; exact Y.
  - assert (EC : tr_curNote (put x' FInstr false) = tr_curNote (put x FInstr false)) by (tin H; reflexivity). rewrite EC. destruct (_ =? -1); [apply T_set_note|cbn [rrel]]; tput.
Qed.
Lemma T_effect_tick t t' : T t t' -> rrel T (BKTrackEffectTick t) (BKTrackEffectTick t').
Proof.
  intros H. unfold BKTrackEffectTick.
  apply (rrel_bind T); [tin H; tsplit|]. clear H t t'. intros t t' H.
  apply (rrel_bind T); [tin H; tsplit|]. clear H t t'. intros t t' H.
  apply (rrel_bind T); [tin H; tsplit|]. clear H t t'. intros t t' H.
  apply (rrel_bind T).
  { tin H. tred. destruct (tf_tremolo _); [|tend]. apply rrel_same. intros [[d s] iv]. tred. tend. }
  clear H t t'. intros t t' H.
  tin H. tred. destruct (tf_vibrato _); [|tend]. apply rrel_same. intros [[d s] iv]. tred. tend.
Qed.
Lemma T_effect_flags t t' : T t t' -> T (BKTrackEffectUpdateFlags t) (BKTrackEffectUpdateFlags t').
Proof.
  assert (S1 : forall x x' j k, T x x' -> k <> FPan -> T (if has x j then put x k true else x) (if has x' j then put x' k true else x')).
  { intros x x' j k X N. assert (E : has x' j = has x j) by (tin X; reflexivity). rewrite E. destruct (has x j); [|exact X]. apply T_put; [exact X|exact N|reflexivity]. }
  intros H. unfold BKTrackEffectUpdateFlags. cbv zeta. repeat (apply S1; [|discriminate]). exact H.
Qed.
Lemma T_set_effect t t' e mem size : T t t' -> rrel TR (BKTrackSetEffect t e mem size) (BKTrackSetEffect t' e mem size).
Proof.
  intros H. unfold BKTrackSetEffect. apply rrel_same. intros vs. cbv zeta. destruct (effect_flag e) as [k|] eqn:EK; [|tend].
  assert (NK : k <> FPan /\ k <> FVolume). { unfold effect_flag in EK. repeat (destruct (_ =? _) in EK; [split; intros ->; discriminate|]). discriminate. }
  destruct NK as (NK1 & NK2). apply (rrel_bind T).
  - tin H. tred. destruct k; tred; (apply rrel_same; intros vv; tred; try (destruct vv as [[? ?] ?]; tred); tend).
  - intros x x' X. split; [|reflexivity]. cbn [fst]. apply T_put; [exact X|exact NK1|intros E; contradiction].
Qed.
Lemma T_set_volume t t' v : T t t' -> rrel T (BKTrackSetVolume t v) (BKTrackSetVolume t' v).
Proof. intros H. unfold BKTrackSetVolume. tin H. tred. apply rrel_same. intros s. tred. tend. Qed.
Lemma T_set_panning t t' v : T t t' -> rrel T (BKTrackSetPanning t v) (BKTrackSetPanning t' v).
Proof. intros H. unfold BKTrackSetPanning. tin H. tred. apply rrel_same. intros s. tred. tend. Qed.

Lemma T_ok r r' : rrel T r r' -> rrel TR (let* t := r in Ok (t, 0)) (let* t := r' in Ok (t, 0)).
Proof. intros H. eapply rrel_bind; [exact H|]. intros x x' X. split; [exact X|reflexivity]. Qed.
Lemma T_set_attr fuel t t' attr value : T t t' -> (BK_VOLUME_0 <=? attr) && (attr <=? BK_VOLUME_7) = false ->
  rrel TR (BKTrackSetAttr fuel t attr value) (BKTrackSetAttr fuel t' attr value).
Proof.
  intros H N2. unfold BKTrackSetAttr. cbv zeta.
  destruct (attr =? BK_MASTER_VOLUME). { tin H. tred. tend. }
  destruct (attr =? BK_VOLUME) eqn:EV; [apply T_ok, T_set_volume; exact H|].
  destruct (attr =? BK_PANNING); [apply T_ok, T_set_panning; exact H|].
  destruct (attr =? BK_WAVEFORM).
  { apply (rrel_bind UR); [apply U_set_attr; [apply H|discriminate|reflexivity]|]. intros (x & r) (x' & r') (X & E). cbn [fst snd] in *. subst r'.
    replace (un_waveform x') with (un_waveform x) by (destruct X as (-> & _); reflexivity).
    destruct (r =? 0); [|tin H; tred; tend]. eapply rrel_bind; [apply T_unit_note, T_ignore; tin H; tred; tmk|]. intros y y' Y. split; [exact Y|reflexivity]. }
  destruct (attr =? BK_DUTY_CYCLE).
  { apply (rrel_bind UR); [apply U_set_attr; [apply H|discriminate|reflexivity]|]. intros (x & r) (x' & r') (X & E). cbn [fst snd] in *. subst r'.
    replace (un_duty x') with (un_duty x) by (destruct X as (-> & _); reflexivity). tin H. destruct (r =? 0); tred; tend. }
  destruct (attr =? BK_NOTE); [apply T_ok, T_set_note; exact H|].
  destruct (attr =? BK_PITCH); [tin H; tred; tend|].
  destruct (attr =? BK_SAMPLE_PITCH); [tin H; tred; tend|].
  destruct (attr =? BK_ARPEGGIO_DIVIDER); [tin H; tred; tend|].
  destruct (attr =? BK_EFFECT_DIVIDER); [tin H; tred; tend|].
  destruct (attr =? BK_INSTRUMENT_DIVIDER); [tin H; tred; tend|].
  destruct (attr =? BK_TRIANGLE_IGNORES_VOLUME). { split; [|reflexivity]. cbn [fst]. apply T_ignore. tput. }
  destruct (_ || _); [apply T_set_effect; exact H|].
  apply (rrel_bind UR); [apply U_set_attr; [apply H|apply Z.eqb_neq; exact EV|exact N2]|]. intros (x & r) (x' & r') (X & E). cbn [fst snd] in *. subst r'. tin H. tred. tend.
Qed.
Lemma T_track_data t t' attr d : T t t' -> rrel TR (track_set_data t attr d) (track_set_data t' attr d).
Proof.
  intros H. unfold track_set_data. cbv zeta.
  assert (ES : un_sample (tr_unit t') = un_sample (tr_unit t) /\ un_waveform (tr_unit t') = un_waveform (tr_unit t) /\ tr_dataId t' = tr_dataId t) by (tin H; tred; ureads; repeat split; reflexivity).
  destruct ES as (-> & -> & ->). apply (rrel_bind TR).
  - destruct (_ || _); [|tend]. apply (rrel_bind UR); [apply U_set_ptr, H|]. intros (x & r) (x' & r') (X & E). cbn [fst snd] in *. subst r'. tin H. destruct d as [[[? ?] ?]|]; [destruct (r =? 0)|]; tred; tend.
  - clear H. intros (x & r) (x' & r') (H & E). cbn [fst snd] in *. subst r'. destruct (negb _); [tend|].
    assert (EW : un_waveform (tr_unit x') = un_waveform (tr_unit x)) by (tin H; tred; ureads; reflexivity). rewrite EW.
    assert (H1 : T (BKTrackUpdateIgnoreVolume (t_waveform x (s32 (un_waveform (tr_unit x))))) (BKTrackUpdateIgnoreVolume (t_waveform x' (s32 (un_waveform (tr_unit x)))))) by (apply T_ignore; tin H; tred; tmk).
    revert H1. generalize (BKTrackUpdateIgnoreVolume (t_waveform x (s32 (un_waveform (tr_unit x))))) (BKTrackUpdateIgnoreVolume (t_waveform x' (s32 (un_waveform (tr_unit x))))). clear H EW. intros y y' Y.
    assert (ES : un_sample (tr_unit y') = un_sample (tr_unit y)) by (tin Y; tred; ureads; reflexivity). rewrite ES. apply T_ok. apply T_unit_note. tin Y. tred. tmk.
Qed.
Lemma T_set_ptr fuel t t' attr p size : T t t' -> rrel TR (BKTrackSetPtr fuel t attr p size) (BKTrackSetPtr fuel t' attr p size).
Proof.
  intros H. unfold BKTrackSetPtr. destruct (_ =? BK_EFFECT_TYPE). { destruct p; try reflexivity; apply T_set_effect; exact H. }
  destruct (_ || _). { destruct p; try reflexivity; apply T_track_data; exact H. }
  destruct (attr =? BK_INSTRUMENT). { destruct p; try reflexivity; apply T_ok, T_set_instr; exact H. }
  destruct (attr =? BK_ARPEGGIO). { apply rrel_same. intros (mem & n). apply T_ok, T_arp_set. exact H. }
  apply rrel_same. intros q. apply (rrel_bind UR); [apply U_set_ptr, H|]. intros (x & r) (x' & r') (X & E). cbn [fst snd] in *. subst r'. tin H. tred. tend.
Qed.
Lemma T_data_event t t' ev : T t t' -> rrel TR (track_data_event t ev) (track_data_event t' ev).
Proof.
  intros H. unfold track_data_event. cbv zeta. assert (ES : un_sample (tr_unit t') = un_sample (tr_unit t)) by (tin H; tred; ureads; reflexivity). rewrite ES.
  destruct (sm_data _); [|tend]. apply (rrel_bind UR). { apply U_callback. destruct ev; [apply U_data_state|]; apply H. }
  intros (x & r) (x' & r') (X & E). cbn [fst snd] in *. subst r'. apply (rrel_bind T). { destruct (r =? 0); [apply T_unit_note|cbn [rrel]]; tin H; tred; tmk. }
  intros y y' Y. split; [|reflexivity]. cbn [fst]. destruct ev; [destruct (r <? 0)|]; try exact Y; tin Y; tred; tmk.
Qed.
(** Up to the flags of the track: the rest of a tick, before and behind the update of the unit. *)
Lemma T_tick_before fuel t t' : T t t' ->
  rrel T (let t := BKTrackEffectUpdateFlags t in
  let* t :=
    (if has t FArp then
       let* (d, tick) := BKDividerStateTick (tr_arpDiv t) in
       let t := t_arpDiv t d in
       if tick : bool then BKTrackArpeggioTick t else Ok t
     else Ok t) in
    (if has t FInstr then
       let* (d, tick) := BKDividerStateTick (tr_instrDiv t) in
       BKTrackInstrumentTick fuel (t_instrDiv t d) (if tick : bool then 1 else 0)
     else Ok t)) (let t := BKTrackEffectUpdateFlags t' in
  let* t :=
    (if has t FArp then
       let* (d, tick) := BKDividerStateTick (tr_arpDiv t) in
       let t := t_arpDiv t d in
       if tick : bool then BKTrackArpeggioTick t else Ok t
     else Ok t) in
    (if has t FInstr then
       let* (d, tick) := BKDividerStateTick (tr_instrDiv t) in
       BKTrackInstrumentTick fuel (t_instrDiv t d) (if tick : bool then 1 else 0)
     else Ok t)).
Proof.
  intros H. cbv zeta. pose proof (T_effect_flags _ _ H) as H1. revert H1. generalize (BKTrackEffectUpdateFlags t) (BKTrackEffectUpdateFlags t'). clear H. intros x x' H.
  apply (rrel_bind T).
  - assert (E : has x' FArp = has x FArp /\ tr_arpDiv x' = tr_arpDiv x) by (tin H; split; reflexivity). destruct E as (-> & ->). destruct (has x FArp); [|exact H]. apply rrel_same. intros (d & tk).
    assert (H1 : T (t_arpDiv x d) (t_arpDiv x' d)) by (tin H; tred; tmk). destruct tk; [apply T_arp_tick|]; exact H1.
  - clear H. intros y y' H. assert (E : has y' FInstr = has y FInstr /\ tr_instrDiv y' = tr_instrDiv y) by (tin H; split; reflexivity). destruct E as (-> & ->). destruct (has y FInstr); [|exact H]. apply rrel_same. intros (d & tk).
    apply T_instr_tick. tin H. tred. tmk.
Qed.
Lemma T_tick_behind t t' : T t t' ->
  rrel T (if any_effect t then let* (d, tick) := BKDividerStateTick (tr_effDiv t) in let t := t_effDiv t d in if tick : bool then BKTrackEffectTick t else Ok t else Ok t)
         (if any_effect t' then let* (d, tick) := BKDividerStateTick (tr_effDiv t') in let t := t_effDiv t' d in if tick : bool then BKTrackEffectTick t else Ok t else Ok t').
Proof.
  intros H. assert (E : any_effect t' = any_effect t /\ tr_effDiv t' = tr_effDiv t) by (tin H; split; reflexivity). destruct E as (-> & ->). destruct (any_effect t); [|exact H]. apply rrel_same. intros (d & tk).
  assert (H1 : T (t_effDiv t d) (t_effDiv t' d)) by (tin H; tred; tmk). destruct tk; [apply T_effect_tick|]; exact H1.
Qed.
End Tracks.
