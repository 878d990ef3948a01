(** Calls on tracks and ticks do not look at the time of the unit and leave it alone, and
    keep its period in range. *)
From Verif Require Import CInt CIntFacts DataModel UnitModel InterpModel ToneModel SequenceModel TrackModel.
Ltac Zify.zify_post_hook ::= idtac.

Definition rmap {A B} (f : A -> B) (r : res A) : res B := match r with Ok a => Ok (f a) | Err e => Err e end.

(** The track with another time of its unit. *)
Definition tm (x : Z) (t : track) : track := t_unit t (set_time (tr_unit t) x).
Definition um (x : Z) (u : bkunit) : bkunit := set_time u x.
Definition fst_map {A B} (f : A -> A) (p : A * B) : A * B := (f (fst p), snd p).

Lemma bind_same {A B C} (a : res A) (f : A -> res B) (g : B -> C) (h : A -> res C) :
  (forall y, h y = rmap g (f y)) -> bind a h = rmap g (bind a f).
Proof. destruct a; cbn; [intros H; apply H|reflexivity]. Qed.

Lemma bind_map {A B C D} (k : A -> D) (a : res D) (b : res A) (f : A -> res B) (g : B -> C) (h : D -> res C) :
  a = rmap k b -> (forall y, h (k y) = rmap g (f y)) -> bind a h = rmap g (bind b f).
Proof. intros -> H. destruct b; cbn; [apply H|reflexivity]. Qed.

Lemma if_map {A B} (c d : bool) (a b : res A) (a' b' : res B) (g : B -> A) : c = d ->
  a = rmap g a' -> b = rmap g b' -> (if c then a else b) = rmap g (if d then a' else b').
Proof. intros ->. destruct d; auto. Qed.

Lemma if_arg {A B} (c d : bool) (a b : A) (a' b' : B) (g : B -> A) : c = d ->
  a = g a' -> b = g b' -> (if c then a else b) = g (if d then a' else b').
Proof. intros ->. destruct d; auto. Qed.

Lemma ok_map {A B} (g : B -> A) a b : a = g b -> Ok a = rmap g (Ok b).
Proof. intros ->. reflexivity. Qed.

Section Time.
Variable x : Z.

(** ** Units *)

Ltac cases := repeat match goal with
  | |- context [if ?c then _ else _] => destruct c
  | |- context [match ?c with Some _ => _ | None => _ end] => destruct c
  | |- context [bind ?c _] => destruct c; cbn [bind]
  | |- context [let (_, _) := ?c in _] => destruct c
  end; try reflexivity.

Ltac uc := cbv beta iota zeta delta [set_ctx set_time set_period set_lastPulse set_waveform set_duty set_volume set_mute set_ph set_sm
  set_flags set_phase unit_data_state un_ctx un_time un_period un_lastPulse un_waveform un_duty un_volume un_mute un_phase un_sample un_sustain
  un_jump un_release].

Lemma try_data_um u d ty di : BKUnitTrySetData (um x u) d ty di = rmap (fst_map (um x)) (BKUnitTrySetData u d ty di).
Proof.
  destruct u as [c0 t0 p0 l0 w0 d0 v0 m0 ph0 s0 f0 g0 h0]. unfold BKUnitTrySetData, um, set_time. cbn [un_ctx un_time un_sample un_phase un_waveform]. cases.
Qed.

Lemma set_data_um u ty d : BKUnitSetData (um x u) ty d = rmap (fst_map (um x)) (BKUnitSetData u ty d).
Proof.
  unfold BKUnitSetData. eapply bind_map; [apply try_data_um|]. intros [u' r]. cbn [fst_map fst snd].
  apply if_map; [reflexivity|reflexivity|]. apply if_map; reflexivity.
Qed.

Lemma data_callback_um di u : BKUnitSampleDataStateCallback di (um x u) = rmap (fst_map (um x)) (BKUnitSampleDataStateCallback di u).
Proof.
  unfold BKUnitSampleDataStateCallback. apply if_map; [reflexivity|apply try_data_um|]. apply if_map; [reflexivity|apply try_data_um|reflexivity].
Qed.

Lemma range_um u a b : BKUnitUpdateSampleRange (um x u) a b = rmap (um x) (BKUnitUpdateSampleRange u a b).
Proof.
  unfold BKUnitUpdateSampleRange, um, set_time. cbn [un_sample un_phase]. destruct (sm_data _); [|reflexivity].
  repeat (apply bind_same; intros ?); reflexivity.
Qed.

Lemma sustain_um u a b : BKUnitUpdateSampleSustainRange (um x u) a b = rmap (um x) (BKUnitUpdateSampleSustainRange u a b).
Proof.
  unfold BKUnitUpdateSampleSustainRange, um, set_time. cbn [un_sample un_phase un_jump un_release]. destruct (sm_data _); [|reflexivity].
  repeat (apply bind_same; intros ?). destruct (_ <? _); reflexivity.
Qed.

Lemma set_attr_um u a v : BKUnitSetAttr (um x u) a v = rmap (fst_map (um x)) (BKUnitSetAttr u a v).
Proof.
  destruct u as [c0 t0 p0 l0 w0 d0 v0 m0 ph0 s0 f0 g0 h0]. unfold BKUnitSetAttr, um, set_time. cbn [un_sample un_phase un_duty un_waveform un_volume un_sustain un_jump un_release un_mute].
  repeat (apply if_map; [reflexivity| |]); uc; cases.
Qed.

Lemma set_ptr_um u a p : BKUnitSetPtr (um x u) a p = rmap (fst_map (um x)) (BKUnitSetPtr u a p).
Proof.
  unfold BKUnitSetPtr. apply if_map; [reflexivity| |].
  { destruct p; reflexivity. }
  apply if_map; [reflexivity| |].
  { apply bind_same. intros d. eapply bind_map; [apply set_data_um|]. intros [u' r]. cbn [fst_map fst snd]. apply if_map; reflexivity. }
  apply if_map; [reflexivity| |].
  { apply if_map; [reflexivity|reflexivity|]. apply bind_same. intros [p1 p2]. eapply bind_map; [apply range_um|]. intros y.
    eapply bind_map; [apply sustain_um|]. reflexivity. }
  apply if_map; [reflexivity| |reflexivity].
  apply if_map; [reflexivity|reflexivity|]. apply bind_same. intros [p1 p2]. eapply bind_map; [apply sustain_um|]. reflexivity.
Qed.

Lemma clear_um u : BKUnitClear (um x u) = rmap (um x) (BKUnitClear u).
Proof.
  unfold BKUnitClear. eapply bind_map; [apply set_data_um|]. intros [u1 r1]. cbn [fst_map fst snd].
  eapply bind_map; [apply set_data_um|]. intros [u2 r2]. reflexivity.
Qed.

(** ** Tracks *)

Lemma put_tm t k b : put (tm x t) k b = tm x (put t k b).
Proof. reflexivity. Qed.

Lemma unit_attr_tm a b at_ v : a = tm x b -> unit_attr a at_ v = rmap (tm x) (unit_attr b at_ v).
Proof.
  intros ->. unfold unit_attr. eapply bind_map; [apply (set_attr_um (tr_unit b))|]. intros [u r]. reflexivity.
Qed.

(** One step; [known] applies what was proved before. *)
Ltac known := apply unit_attr_tm; reflexivity.
Ltac pairs := repeat match goal with y : (_ * _)%type |- _ => destruct y end.
Ltac blind1 :=
  cbv beta zeta;
  first
  [ reflexivity
  | known
  | match goal with
    | |- (if _ then _ else _) = rmap _ (if _ then _ else _) => apply if_map; [reflexivity| |]
    | |- bind _ _ = rmap _ (bind _ _) => first
        [ apply bind_same; let y := fresh "y" in intros y; pairs
        | eapply (bind_map (tm x)); [known|let y := fresh "y" in intros y]
        | eapply (bind_map (fst_map (tm x))); [known|let t := fresh "t" in let r := fresh "r" in intros [t r]; cbn [fst_map fst snd]]
        | eapply (bind_map (tm x)); [|let y := fresh "y" in intros y]
        | eapply (bind_map (fst_map (tm x))); [|let t := fresh "t" in let r := fresh "r" in intros [t r]; cbn [fst_map fst snd]] ]
    | |- match ?c with _ => _ end = rmap _ (match ?c with _ => _ end) => destruct c
    | |- match ?c with _ => _ end = rmap _ (match ?d with _ => _ end) => change c with d; destruct d
    end ].
Ltac blind := repeat blind1; pairs.

Lemma volume_tm a b : a = tm x b -> BKTrackUpdateUnitVolume a = rmap (tm x) (BKTrackUpdateUnitVolume b).
Proof. intros ->. unfold BKTrackUpdateUnitVolume. blind. Qed.

Lemma note_tm a b : a = tm x b -> BKTrackUpdateUnitNote a = rmap (tm x) (BKTrackUpdateUnitNote b).
Proof. intros ->. unfold BKTrackUpdateUnitNote. blind. Qed.

Lemma duty_tm a b : a = tm x b -> BKTrackUpdateUnitDutyCycle a = rmap (tm x) (BKTrackUpdateUnitDutyCycle b).
Proof. intros ->. unfold BKTrackUpdateUnitDutyCycle. blind. Qed.

Ltac known ::= first [apply unit_attr_tm; reflexivity | apply volume_tm; reflexivity | apply note_tm; reflexivity | apply duty_tm; reflexivity].

Lemma update_tm a b : a = tm x b -> BKTrackUpdateUnit a = rmap (tm x) (BKTrackUpdateUnit b).
Proof. intros ->. unfold BKTrackUpdateUnit. blind. Qed.

Lemma arp_notes_tm a b l n : a = tm x b -> BKTrackArpeggioSetNotes a l n = rmap (tm x) (BKTrackArpeggioSetNotes b l n).
Proof. intros ->. unfold BKTrackArpeggioSetNotes. blind. Qed.

Lemma arp_tick_tm a b : a = tm x b -> BKTrackArpeggioTick a = rmap (tm x) (BKTrackArpeggioTick b).
Proof. intros ->. unfold BKTrackArpeggioTick. blind. Qed.

Lemma if_tm (c : bool) t k v : (if c then put (tm x t) k v else tm x t) = tm x (if c then put t k v else t).
Proof. destruct c; reflexivity. Qed.

Lemma iflags_tm a b f : a = tm x b -> BKTrackInstrumentUpdateFlags a f = tm x (BKTrackInstrumentUpdateFlags b f).
Proof.
  intros ->. unfold BKTrackInstrumentUpdateFlags. destruct f; [reflexivity|]. cbv zeta.
  repeat (match goal with |- context [some_seq (tm x ?b) ?k] => change (some_seq (tm x b) k) with (some_seq b k) end; rewrite if_tm).
  reflexivity.
Qed.

Lemma eflags_tm a b : a = tm x b -> BKTrackEffectUpdateFlags a = tm x (BKTrackEffectUpdateFlags b).
Proof.
  intros ->. unfold BKTrackEffectUpdateFlags. cbv zeta.
  repeat (match goal with |- context [has (tm x ?b) ?k] => change (has (tm x b) k) with (has b k) end; rewrite if_tm).
  reflexivity.
Qed.

Ltac known ::= first [apply unit_attr_tm; reflexivity | apply volume_tm; reflexivity | apply note_tm; reflexivity | apply duty_tm; reflexivity
  | apply ok_map; apply iflags_tm; reflexivity].

Lemma plain_tm fuel a b p : a = tm x b -> set_phase_plain fuel a p = rmap (fst_map (tm x)) (set_phase_plain fuel b p).
Proof. intros ->. unfold set_phase_plain. blind. Qed.

Lemma set_mute_tm (f g : track -> Z -> res track) a b : a = tm x b ->
  (forall t p, f (tm x t) p = rmap (tm x) (g t p)) -> set_note_mute f a = rmap (tm x) (set_note_mute g b).
Proof.
  intros -> H. unfold set_note_mute. cbv zeta.
  eapply (bind_map (tm x)).
  { apply if_map; [reflexivity| |reflexivity]. eapply (bind_map (tm x)); [apply (H (t_note (t_curNote b (-1)) (BKSlideStateHalt (tr_note b) true)))|].
    intros y. known. }
  intros y. blind.
Qed.

Ltac known ::= first [apply unit_attr_tm; reflexivity | apply volume_tm; reflexivity | apply note_tm; reflexivity | apply duty_tm; reflexivity
  | apply ok_map; apply iflags_tm; reflexivity | apply plain_tm; reflexivity].

Lemma inner_tm fuel a b p : a = tm x b -> set_phase_inner fuel a p = rmap (tm x) (set_phase_inner fuel b p).
Proof. intros ->. unfold set_phase_inner. blind. Qed.

Lemma mute_event_tm fuel a b : a = tm x b -> mute_event fuel a = rmap (tm x) (mute_event fuel b).
Proof. intros ->. unfold mute_event. apply set_mute_tm; [reflexivity|]. intros. apply inner_tm. reflexivity. Qed.

Ltac known ::= first [apply unit_attr_tm; reflexivity | apply volume_tm; reflexivity | apply note_tm; reflexivity | apply duty_tm; reflexivity
  | apply ok_map; apply iflags_tm; reflexivity | apply plain_tm; reflexivity | apply mute_event_tm; reflexivity].

Lemma set_phase_tm fuel a b p : a = tm x b -> track_set_phase fuel a p = rmap (tm x) (track_set_phase fuel b p).
Proof. intros ->. unfold track_set_phase. blind. Qed.

Ltac known ::= first [apply unit_attr_tm; reflexivity | apply volume_tm; reflexivity | apply note_tm; reflexivity | apply duty_tm; reflexivity
  | apply ok_map; apply iflags_tm; reflexivity | apply plain_tm; reflexivity | apply mute_event_tm; reflexivity | apply set_phase_tm; reflexivity].

Lemma tick_loop_tm fuel n : forall i a b l, a = tm x b -> track_tick_loop fuel n i a l = rmap (tm x) (track_tick_loop fuel n i b l).
Proof.
  induction n as [|n IH]; intros i a b l ->; cbn [track_tick_loop]; [reflexivity|].
  cbv zeta. do 3 (apply bind_same; intros ?; pairs).
  eapply (bind_map (tm x)); [|intros ?; apply IH; reflexivity].
  blind.
Qed.

Lemma instr_tick_tm fuel a b l : a = tm x b -> BKTrackInstrumentTick fuel a l = rmap (tm x) (BKTrackInstrumentTick fuel b l).
Proof.
  intros ->. unfold BKTrackInstrumentTick. change (tr_instr (tm x b)) with (tr_instr b). destruct (tr_instr b) as [[]|]; [|reflexivity].
  eapply (bind_map (tm x)); [apply tick_loop_tm; reflexivity|]. intros y. known.
Qed.

Lemma init_values_tm a b : a = tm x b -> BKTrackSetInstrumentInitValues a = rmap (tm x) (BKTrackSetInstrumentInitValues b).
Proof. intros ->. unfold BKTrackSetInstrumentInitValues. blind. Qed.

Ltac known ::= first [apply unit_attr_tm; reflexivity | apply volume_tm; reflexivity | apply note_tm; reflexivity | apply duty_tm; reflexivity
  | apply ok_map; apply iflags_tm; reflexivity | apply plain_tm; reflexivity | apply mute_event_tm; reflexivity | apply set_phase_tm; reflexivity
  | apply init_values_tm; reflexivity].

Lemma attack_tm fuel a b : a = tm x b -> BKTrackInstrumentAttack fuel a = rmap (tm x) (BKTrackInstrumentAttack fuel b).
Proof. intros ->. unfold BKTrackInstrumentAttack. blind. Qed.
Lemma release_tm fuel a b : a = tm x b -> BKTrackInstrumentRelease fuel a = rmap (tm x) (BKTrackInstrumentRelease fuel b).
Proof. intros ->. unfold BKTrackInstrumentRelease. blind. Qed.
Lemma mute_tm fuel a b : a = tm x b -> BKTrackInstrumentMute fuel a = rmap (tm x) (BKTrackInstrumentMute fuel b).
Proof. intros ->. unfold BKTrackInstrumentMute. blind. Qed.

Ltac known ::= first [apply unit_attr_tm; reflexivity | apply volume_tm; reflexivity | apply note_tm; reflexivity | apply duty_tm; reflexivity
  | apply ok_map; apply iflags_tm; reflexivity | apply plain_tm; reflexivity | apply mute_event_tm; reflexivity | apply set_phase_tm; reflexivity
  | apply init_values_tm; reflexivity | apply attack_tm; reflexivity | apply release_tm; reflexivity | apply mute_tm; reflexivity
  | apply set_mute_tm; [reflexivity | intros; known]].

Lemma set_note_tm fuel a b n : a = tm x b -> BKTrackSetNote fuel a n = rmap (tm x) (BKTrackSetNote fuel b n).
Proof. intros ->. unfold BKTrackSetNote. blind. Qed.

Lemma state_instr_tm fuel a b i : a = tm x b -> state_set_instrument fuel a i = rmap (tm x) (state_set_instrument fuel b i).
Proof. intros ->. unfold state_set_instrument. blind. Qed.

Ltac known ::= first [apply unit_attr_tm; reflexivity | apply volume_tm; reflexivity | apply note_tm; reflexivity | apply duty_tm; reflexivity
  | apply ok_map; apply iflags_tm; reflexivity | apply plain_tm; reflexivity | apply mute_event_tm; reflexivity | apply set_phase_tm; reflexivity
  | apply init_values_tm; reflexivity | apply attack_tm; reflexivity | apply release_tm; reflexivity | apply mute_tm; reflexivity
  | apply set_note_tm; reflexivity | apply state_instr_tm; reflexivity].

Lemma set_instr_tm fuel a b i : a = tm x b -> BKTrackSetInstrument fuel a i = rmap (tm x) (BKTrackSetInstrument fuel b i).
Proof. intros ->. unfold BKTrackSetInstrument. blind. Qed.

Lemma effect_tick_tm a b : a = tm x b -> BKTrackEffectTick a = rmap (tm x) (BKTrackEffectTick b).
Proof. intros ->. unfold BKTrackEffectTick. blind. Qed.

Ltac known ::= first [apply arp_tick_tm; reflexivity | apply instr_tick_tm; reflexivity | apply update_tm; reflexivity | apply effect_tick_tm; reflexivity].

Lemma tick_tm fuel a b : a = tm x b -> BKTrackTick fuel a = rmap (tm x) (BKTrackTick fuel b).
Proof.
  intros ->. unfold BKTrackTick. rewrite (eflags_tm _ b) by reflexivity. blind.
Qed.

Lemma set_effect_tm a b ef m s : a = tm x b -> BKTrackSetEffect a ef m s = rmap (fst_map (tm x)) (BKTrackSetEffect b ef m s).
Proof. intros ->. unfold BKTrackSetEffect. blind. Qed.

Lemma track_unit_tm {A} (f g : bkunit -> res (bkunit * A)) (h : bkunit * A -> res (track * A)) (h' : bkunit * A -> res (track * A)) u :
  f (um x u) = rmap (fst_map (um x)) (g u) ->
  (forall u' r, h (um x u', r) = rmap (fst_map (tm x)) (h' (u', r))) ->
  bind (f (um x u)) h = rmap (fst_map (tm x)) (bind (g u) h').
Proof. intros H K. eapply bind_map; [exact H|]. intros [u' r]. apply K. Qed.

Ltac known ::= first [apply unit_attr_tm; reflexivity | apply note_tm; reflexivity
  | apply set_note_tm; reflexivity | apply set_effect_tm; reflexivity | apply set_instr_tm; reflexivity | apply arp_notes_tm; reflexivity
  | apply update_tm; reflexivity | apply state_instr_tm; reflexivity | apply mute_event_tm; reflexivity].

Lemma track_attr_tm fuel a b at_ v : a = tm x b -> BKTrackSetAttr fuel a at_ v = rmap (fst_map (tm x)) (BKTrackSetAttr fuel b at_ v).
Proof.
  intros ->. unfold BKTrackSetAttr, BKTrackSetVolume, BKTrackSetPanning. cbv zeta.
  do 3 (apply if_map; [reflexivity|blind|]).
  apply if_map; [reflexivity| |].
  { eapply bind_map; [apply (set_attr_um (tr_unit b))|]. intros [u r]. cbn [fst_map fst snd]. blind. }
  apply if_map; [reflexivity| |].
  { eapply bind_map; [apply (set_attr_um (tr_unit b))|]. intros [u r]. cbn [fst_map fst snd]. destruct (r =? 0); reflexivity. }
  do 8 (apply if_map; [reflexivity|blind|]).
  eapply bind_map; [apply (set_attr_um (tr_unit b))|]. intros [u r]. reflexivity.
Qed.

Lemma set_data_tm a b at_ d : a = tm x b -> track_set_data a at_ d = rmap (fst_map (tm x)) (track_set_data b at_ d).
Proof.
  intros ->. unfold track_set_data. cbv zeta. eapply (bind_map (fst_map (tm x))).
  { apply if_map; [reflexivity| |reflexivity]. eapply bind_map; [apply (set_ptr_um (tr_unit b))|]. intros [u r]. cbn [fst_map fst snd].
    destruct d as [[[? ?] ?]|]; [|reflexivity]. destruct (r =? 0); reflexivity. }
  intros [t r]. cbn [fst_map fst snd]. blind.
Qed.

Ltac known ::= first [apply unit_attr_tm; reflexivity | apply note_tm; reflexivity
  | apply set_note_tm; reflexivity | apply set_effect_tm; reflexivity | apply set_instr_tm; reflexivity | apply arp_notes_tm; reflexivity
  | apply update_tm; reflexivity | apply state_instr_tm; reflexivity | apply mute_event_tm; reflexivity
  | apply set_data_tm; reflexivity | apply track_attr_tm; reflexivity | apply tick_tm; reflexivity].

Lemma track_ptr_tm fuel a b at_ p s : a = tm x b -> BKTrackSetPtr fuel a at_ p s = rmap (fst_map (tm x)) (BKTrackSetPtr fuel b at_ p s).
Proof.
  intros ->. unfold BKTrackSetPtr. cbv zeta.
  do 4 (apply if_map; [reflexivity|blind|]).
  apply bind_same. intros y.
  eapply bind_map; [apply (set_ptr_um (tr_unit b))|]. intros [u r]. reflexivity.
Qed.

Lemma track_clear_tm fuel a b : a = tm x b -> BKTrackClear fuel a = rmap (tm x) (BKTrackClear fuel b).
Proof.
  intros ->. unfold BKTrackClear. cbv zeta. eapply bind_map; [apply (clear_um (tr_unit b))|]. intros u. blind.
Qed.

Lemma data_event_tm a b ev : a = tm x b -> track_data_event a ev = rmap (fst_map (tm x)) (track_data_event b ev).
Proof.
  intros ->. unfold track_data_event. cbv zeta. change (sm_data (un_sample (tr_unit (tm x b)))) with (sm_data (un_sample (tr_unit b))).
  destruct (sm_data (un_sample (tr_unit b))); [|reflexivity].
  set (u := match ev with Some d => unit_data_state (tr_unit b) (Some d) | None => tr_unit b end).
  replace (match ev with Some d => unit_data_state (tr_unit (tm x b)) (Some d) | None => tr_unit (tm x b) end) with (um x u) by (destruct ev; reflexivity).
  eapply bind_map; [apply (data_callback_um _ u)|]. intros [u' r]. cbn [fst_map fst snd]. blind.
  apply ok_map. destruct ev; cbn [fst_map fst snd]; [|reflexivity]. destruct (r <? 0); reflexivity.
Qed.

Lemma instr_set_tm fuel a b sl v so sl2 : a = tm x b -> track_instr_set fuel a sl v so sl2 = rmap (fst_map (tm x)) (track_instr_set fuel b sl v so sl2).
Proof.
  intros ->. unfold track_instr_set. cbv zeta. change (tr_instr (tm x b)) with (tr_instr b). destruct (tr_instr b) as [[id i]|]; [|reflexivity].
  apply bind_same. intros [[? s] code]. apply if_map; [reflexivity|reflexivity|].
  eapply (bind_map (tm x)); [blind|]. intros y. rewrite (iflags_tm _ y) by reflexivity. blind.
Qed.

Lemma instr_dispose_tm fuel a b : a = tm x b -> track_instr_dispose fuel a = rmap (tm x) (track_instr_dispose fuel b).
Proof. intros ->. unfold track_instr_dispose. blind. Qed.

Ltac known ::= first [apply track_attr_tm; reflexivity | apply track_ptr_tm; reflexivity | apply track_clear_tm; reflexivity
  | apply data_event_tm; reflexivity | apply instr_set_tm; reflexivity | apply instr_dispose_tm; reflexivity | apply tick_tm; reflexivity].

(** What clients call on an attached track, apart from [BKTrackReset]. *)
Definition plain_op (o : top) : bool :=
  match o with
  | OAttr _ _ | OPtr _ _ _ | OData _ | OInstrSet _ _ _ _ | OInstrDispose | OClear => true
  | _ => false
  end.

Lemma tstep_tm fuel t o : plain_op o = true -> tstep fuel (tm x t) o = rmap (fst_map (tm x)) (tstep fuel t o).
Proof.
  destruct o; intros H; try discriminate H; cbn [tstep].
  - eapply (bind_map (fst_map (tm x))); [apply track_attr_tm; reflexivity|]. intros [y r]. reflexivity.
  - eapply (bind_map (fst_map (tm x))); [apply track_ptr_tm; reflexivity|]. intros [y r]. reflexivity.
  - eapply (bind_map (fst_map (tm x))); [apply data_event_tm; reflexivity|]. intros [y r]. reflexivity.
  - eapply (bind_map (fst_map (tm x))); [apply instr_set_tm; reflexivity|]. intros [y r]. reflexivity.
  - eapply (bind_map (tm x)); [apply instr_dispose_tm; reflexivity|]. intros y. reflexivity.
  - eapply (bind_map (tm x)); [apply track_clear_tm; reflexivity|]. intros y. reflexivity.
Qed.

End Time.

Lemma tm_self t : tm (un_time (tr_unit t)) t = t.
Proof. destruct t as [[]]. reflexivity. Qed.

Lemma tstep_time fuel t o t' l : plain_op o = true -> tstep fuel t o = Ok (t', l) -> un_time (tr_unit t') = un_time (tr_unit t).
Proof.
  intros P H. pose proof (tstep_tm (un_time (tr_unit t)) fuel t o P) as K. rewrite tm_self, H in K. unfold rmap, fst_map in K. cbn [fst snd] in K.
  assert (t' = tm (un_time (tr_unit t)) t') as -> by congruence. reflexivity.
Qed.

Lemma tick_time fuel t t' : BKTrackTick fuel t = Ok t' -> un_time (tr_unit t') = un_time (tr_unit t).
Proof.
  intros H. pose proof (tick_tm (un_time (tr_unit t)) fuel t t (eq_sym (tm_self t))) as K. rewrite H in K. cbn [rmap] in K.
  assert (t' = tm (un_time (tr_unit t)) t') as -> by congruence. reflexivity.
Qed.

Lemma update_time t t' : BKTrackUpdateUnit t = Ok t' -> un_time (tr_unit t') = un_time (tr_unit t).
Proof.
  intros H. pose proof (update_tm (un_time (tr_unit t)) t t (eq_sym (tm_self t))) as K. rewrite H in K. cbn [rmap] in K.
  assert (t' = tm (un_time (tr_unit t)) t') as -> by congruence. reflexivity.
Qed.

(** ** The period of the unit *)

Definition holds {A} (P : A -> Prop) (r : res A) : Prop := match r with Ok a => P a | Err _ => True end.

Lemma holds_bind {A B} (Q : A -> Prop) (P : B -> Prop) a f : holds Q a -> (forall y, Q y -> holds P (f y)) -> holds P (bind a f).
Proof. destruct a; cbn; auto. Qed.
Lemma holds_any {A B} (P : B -> Prop) (a : res A) f : (forall y, holds P (f y)) -> holds P (bind a f).
Proof. destruct a; cbn; auto. Qed.

Definition Pu (u : bkunit) : Prop := 0 <= un_period u < 2147483648 /\ 0 <= sm_timeFrac (un_sample u) < 1048576.
Definition Pt (t : track) : Prop := Pu (tr_unit t).
Definition Pup {A} (p : bkunit * A) : Prop := Pu (fst p).
Definition Ptp {A} (p : track * A) : Prop := Pt (fst p).

Ltac pairs := repeat match goal with y : (_ * _)%type |- _ => destruct y end.
Ltac known := fail.
Ltac keep1 :=
  cbv beta zeta;
  first
  [ match goal with |- holds _ (Err _) => exact I end
  | known
  | match goal with
    | H : Pt _ |- holds Pt (Ok _) => exact H
    | H : Pt _ |- holds Ptp (Ok _) => exact H
    | H : Pu _ |- holds Pu (Ok _) => exact H
    | H : Pu _ |- holds Pup (Ok _) => exact H
    | H : Pu _ |- holds Pt (Ok _) => exact H
    | H : Pu _ |- holds Ptp (Ok _) => exact H
    | |- holds _ (if ?c then _ else _) => destruct c
    | |- holds _ (@bind ?A _ _ _) =>
        lazymatch A with
        | track => apply (holds_bind Pt); [|let y := fresh "t" in let H := fresh "H" in intros y H]
        | (track * _)%type => apply (holds_bind Ptp); [|let y := fresh "t" in let r := fresh "r" in let H := fresh "H" in intros [y r] H; unfold Ptp in H; cbn [fst] in H]
        | bkunit => apply (holds_bind Pu); [|let y := fresh "u" in let H := fresh "H" in intros y H]
        | (bkunit * _)%type => apply (holds_bind Pup); [|let y := fresh "u" in let r := fresh "r" in let H := fresh "H" in intros [y r] H; unfold Pup in H; cbn [fst] in H]
        | _ => apply holds_any; let y := fresh "y" in intros y; repeat match goal with z : (_ * _)%type |- _ => destruct z end
        end
    | |- holds _ (match ?c with _ => _ end) => destruct c
    | |- holds _ (Ok ?x) => match x with context [match ?c with _ => _ end] => destruct c end
    end ].
Ltac keep := repeat keep1.

Lemma try_data_keep u d ty di : Pu u -> holds Pup (BKUnitTrySetData u d ty di).
Proof. intros H. unfold BKUnitTrySetData. keep. Qed.

Ltac known ::= (simple apply try_data_keep; assumption).

Lemma set_data_keep u ty d : Pu u -> holds Pup (BKUnitSetData u ty d).
Proof. intros H. unfold BKUnitSetData. keep. Qed.
Lemma data_callback_keep u di : Pu u -> holds Pup (BKUnitSampleDataStateCallback di u).
Proof. intros H. unfold BKUnitSampleDataStateCallback. keep. Qed.
Lemma range_keep u a b : Pu u -> holds Pu (BKUnitUpdateSampleRange u a b).
Proof. intros H. unfold BKUnitUpdateSampleRange. keep. Qed.
Lemma sustain_keep u a b : Pu u -> holds Pu (BKUnitUpdateSampleSustainRange u a b).
Proof. intros H. unfold BKUnitUpdateSampleSustainRange. keep. Qed.

Lemma abs32_keep v r : in_s32 v = true -> abs32 v = Ok r -> 0 <= r < 2147483648.
Proof.
  unfold abs32, in_s32. intros I H. destruct (v <? 0) eqn:L.
  - simple apply chk32_inv in H. destruct H as [-> R]. lia.
  - injection H as ->. lia.
Qed.

Lemma set_attr_keep u a v : Pu u -> a =? BK_PERIOD = false \/ in_s32 v = true -> holds Pup (BKUnitSetAttr u a v).
Proof.
  intros H V. unfold BKUnitSetAttr. cbv zeta. assert (V' : a =? BK_PERIOD = true -> in_s32 v = true) by (destruct V as [V|V]; [rewrite V; discriminate|auto]). clear V.
  destruct (a =? BK_PERIOD) eqn:AP; [|clear V'; keep]. specialize (V' eq_refl). rename V' into V.
  assert (C : forall c w, holds Pup (let* x := abs32 v in Ok (set_period u (BKMax x BK_MIN_PERIOD), c : Z)) /\ w = w :> Z).
  { intros c w. split; [|reflexivity]. destruct (abs32 v) eqn:E; cbn; [|exact I]. apply abs32_keep in E; [|exact V].
    destruct H as [_ T]. unfold Pup, Pu, BKMax, BK_MIN_PERIOD. cbn. split; [destruct (_ >? _); lia|exact T]. }
  repeat (match goal with |- holds _ (let* x := abs32 v in Ok (set_period _ _, _)) => exact (proj1 (C 0 0)) | _ => keep1 end).
Qed.

Ltac known ::= first [simple apply set_data_keep; assumption | simple apply range_keep; assumption | simple apply sustain_keep; assumption].

Lemma set_ptr_keep u a p : Pu u -> holds Pup (BKUnitSetPtr u a p).
Proof. intros H. unfold BKUnitSetPtr. keep. Qed.
Lemma clear_keep u : Pu u -> holds Pu (BKUnitClear u).
Proof.
  intros H. unfold BKUnitClear. apply (holds_bind Pup); [apply set_data_keep; exact H|]. intros [u1 r1] H1.
  apply (holds_bind Pup); [apply set_data_keep; exact H1|]. intros [u2 r2] H2. cbv zeta. unfold holds, Pu.
  destruct H2 as [H2 _]. split; [exact H2|]. destruct (_ >? _); cbn; lia.
Qed.

Lemma unit_attr_keep t a v : Pt t -> a =? BK_PERIOD = false \/ in_s32 v = true -> holds Pt (unit_attr t a v).
Proof.
  intros H V. unfold unit_attr. apply (holds_bind Pup); [apply set_attr_keep; assumption|]. intros [u r] K. exact K.
Qed.

Lemma s32_in z : in_s32 (s32 z) = true.
Proof. pose proof (s32_range z). unfold in_s32. lia. Qed.

Ltac sub := cbn [tr_unit]; eassumption.
Ltac known ::= first [simple apply unit_attr_keep; [sub|first [left; reflexivity|right; simple apply s32_in]]].

Lemma volume_keep t : Pt t -> holds Pt (BKTrackUpdateUnitVolume t).
Proof. intros H. unfold BKTrackUpdateUnitVolume. keep. Qed.
Lemma note_keep t : Pt t -> holds Pt (BKTrackUpdateUnitNote t).
Proof. intros H. unfold BKTrackUpdateUnitNote. keep. Qed.
Lemma duty_keep t : Pt t -> holds Pt (BKTrackUpdateUnitDutyCycle t).
Proof. intros H. unfold BKTrackUpdateUnitDutyCycle. keep. Qed.

Ltac known ::= first [simple apply unit_attr_keep; [sub|first [left; reflexivity|right; simple apply s32_in]] | simple apply volume_keep; sub | simple apply note_keep; sub | simple apply duty_keep; sub].

Lemma update_keep t : Pt t -> holds Pt (BKTrackUpdateUnit t).
Proof. intros H. unfold BKTrackUpdateUnit. keep. Qed.
Lemma arp_notes_keep t l n : Pt t -> holds Pt (BKTrackArpeggioSetNotes t l n).
Proof. intros H. unfold BKTrackArpeggioSetNotes. keep. Qed.
Lemma arp_tick_keep t : Pt t -> holds Pt (BKTrackArpeggioTick t).
Proof. intros H. unfold BKTrackArpeggioTick. keep. Qed.

Lemma iflags_keep t f : Pt t -> Pt (BKTrackInstrumentUpdateFlags t f).
Proof.
  intros H. unfold BKTrackInstrumentUpdateFlags. destruct f; [exact H|]. cbv zeta.
  assert (K : forall (c : bool) s k b, Pt s -> Pt (if c then put s k b else s)) by (intros []; auto).
  repeat apply K. exact H.
Qed.
Lemma eflags_keep t : Pt t -> Pt (BKTrackEffectUpdateFlags t).
Proof.
  intros H. unfold BKTrackEffectUpdateFlags. cbv zeta.
  assert (K : forall (c : bool) s k b, Pt s -> Pt (if c then put s k b else s)) by (intros []; auto).
  repeat apply K. exact H.
Qed.

Lemma plain_keep fuel t p : Pt t -> holds Ptp (set_phase_plain fuel t p).
Proof. intros H. unfold set_phase_plain. keep. Qed.

Lemma set_mute_keep f t : Pt t -> (forall t p, Pt t -> holds Pt (f t p)) -> holds Pt (set_note_mute f t).
Proof.
  intros H F. unfold set_note_mute. cbv zeta. apply (holds_bind Pt).
  { keep1; [|exact H]. apply (holds_bind Pt); [apply F; exact H|]. intros y Y. apply iflags_keep. exact Y. }
  intros y Y. keep.
Qed.

Ltac known ::= first [simple apply plain_keep; sub | match goal with |- holds Pt (Ok (BKTrackInstrumentUpdateFlags _ _)) => apply iflags_keep; sub end].
Lemma inner_keep fuel t p : Pt t -> holds Pt (set_phase_inner fuel t p).
Proof. intros H. unfold set_phase_inner. keep. Qed.
Lemma mute_event_keep fuel t : Pt t -> holds Pt (mute_event fuel t).
Proof. intros H. unfold mute_event. apply set_mute_keep; [exact H|]. intros. apply inner_keep. assumption. Qed.
Ltac known ::= first [simple apply plain_keep; sub | match goal with |- holds Pt (Ok (BKTrackInstrumentUpdateFlags _ _)) => apply iflags_keep; sub end | simple apply mute_event_keep; sub].
Lemma set_phase_keep fuel t p : Pt t -> holds Pt (track_set_phase fuel t p).
Proof. intros H. unfold track_set_phase. keep. Qed.
Ltac known ::= first [match goal with |- holds Pt (Ok (BKTrackInstrumentUpdateFlags _ _)) => apply iflags_keep; sub end | simple apply set_phase_keep; sub].

Lemma tick_loop_keep fuel n : forall i t l, Pt t -> holds Pt (track_tick_loop fuel n i t l).
Proof.
  induction n as [|n IH]; intros i t l H; cbn [track_tick_loop]; [exact H|].
  cbv zeta. do 3 (apply holds_any; intros ?; pairs).
  apply (holds_bind Pt); [|intros ? ?; apply IH; assumption]. keep.
Qed.
Lemma instr_tick_keep fuel t l : Pt t -> holds Pt (BKTrackInstrumentTick fuel t l).
Proof.
  intros H. unfold BKTrackInstrumentTick. destruct (tr_instr t) as [[]|]; [|exact I].
  apply (holds_bind Pt); [apply tick_loop_keep; exact H|]. intros y Y. apply iflags_keep. exact Y.
Qed.
Lemma init_values_keep t : Pt t -> holds Pt (BKTrackSetInstrumentInitValues t).
Proof. intros H. unfold BKTrackSetInstrumentInitValues. keep. Qed.
Ltac known ::= first [match goal with |- holds Pt (Ok (BKTrackInstrumentUpdateFlags _ _)) => apply iflags_keep; sub end | simple apply set_phase_keep; sub | simple apply init_values_keep; sub].
Lemma attack_keep fuel t : Pt t -> holds Pt (BKTrackInstrumentAttack fuel t).
Proof. intros H. unfold BKTrackInstrumentAttack. keep. Qed.
Lemma release_keep fuel t : Pt t -> holds Pt (BKTrackInstrumentRelease fuel t).
Proof. intros H. unfold BKTrackInstrumentRelease. keep. Qed.
Lemma mute_keep fuel t : Pt t -> holds Pt (BKTrackInstrumentMute fuel t).
Proof. intros H. unfold BKTrackInstrumentMute. keep. Qed.
Ltac known ::= first [simple apply unit_attr_keep; [sub|first [left; reflexivity|right; simple apply s32_in]]
  | simple apply attack_keep; sub | simple apply release_keep; sub | simple apply mute_keep; sub
  | simple apply set_mute_keep; [sub|intros; simple apply set_phase_keep; assumption]].
Lemma set_note_keep fuel t n : Pt t -> holds Pt (BKTrackSetNote fuel t n).
Proof. intros H. unfold BKTrackSetNote. keep. Qed.
Lemma state_instr_keep fuel t i : Pt t -> holds Pt (state_set_instrument fuel t i).
Proof. intros H. unfold state_set_instrument. keep. Qed.
Ltac known ::= first [match goal with |- holds Pt (Ok (BKTrackInstrumentUpdateFlags _ _)) => apply iflags_keep; sub end | simple apply init_values_keep; sub | simple apply state_instr_keep; sub | simple apply set_note_keep; sub
  | simple apply attack_keep; sub | simple apply release_keep; sub | simple apply mute_keep; sub].
Lemma set_instr_keep fuel t i : Pt t -> holds Pt (BKTrackSetInstrument fuel t i).
Proof. intros H. unfold BKTrackSetInstrument. keep. Qed.
Lemma effect_tick_keep t : Pt t -> holds Pt (BKTrackEffectTick t).
Proof. intros H. unfold BKTrackEffectTick. keep. Qed.
Ltac known ::= first [simple apply arp_tick_keep; sub | simple apply instr_tick_keep; sub | simple apply update_keep; sub | simple apply effect_tick_keep; sub].
Lemma tick_keep fuel t : Pt t -> holds Pt (BKTrackTick fuel t).
Proof. intros H. unfold BKTrackTick. apply eflags_keep in H. keep. Qed.
Lemma set_effect_keep t ef m s : Pt t -> holds Ptp (BKTrackSetEffect t ef m s).
Proof. intros H. unfold BKTrackSetEffect. keep. Qed.

Ltac known ::= first [simple apply set_attr_keep; [sub|first [left; reflexivity|assumption]]
  | simple apply note_keep; sub | simple apply set_note_keep; sub | simple apply set_effect_keep; sub | simple apply set_ptr_keep; sub | simple apply set_instr_keep; sub
  | simple apply arp_notes_keep; sub].
Lemma track_attr_keep fuel t a v : Pt t -> a =? BK_PERIOD = false \/ in_s32 v = true -> holds Ptp (BKTrackSetAttr fuel t a v).
Proof. intros H V. unfold BKTrackSetAttr, BKTrackSetVolume, BKTrackSetPanning. keep. Qed.
Lemma set_data_t_keep t a d : Pt t -> holds Ptp (track_set_data t a d).
Proof. intros H. unfold track_set_data. keep. Qed.
Ltac known ::= first [simple apply set_data_t_keep; sub
  | simple apply note_keep; sub | simple apply set_note_keep; sub | simple apply set_effect_keep; sub | simple apply set_ptr_keep; sub | simple apply set_instr_keep; sub
  | simple apply arp_notes_keep; sub].
Lemma track_ptr_keep fuel t a p s : Pt t -> holds Ptp (BKTrackSetPtr fuel t a p s).
Proof. intros H. unfold BKTrackSetPtr. keep. Qed.

Ltac known ::= first [simple apply clear_keep; sub | simple apply set_instr_keep; sub | simple apply track_attr_keep; [sub|left; reflexivity]
  | simple apply note_keep; sub | simple apply data_callback_keep; sub | simple apply mute_event_keep; sub | simple apply update_keep; sub
  | simple apply state_instr_keep; sub].
Lemma cleared_keep t : Pt t -> Pt (cleared t).
Proof. intros H. exact H. Qed.
Lemma track_clear_keep fuel t : Pt t -> holds Pt (BKTrackClear fuel t).
Proof.
  intros H. unfold BKTrackClear. cbv zeta. apply (holds_bind Pu); [apply clear_keep; exact H|]. intros u U.
  apply (holds_bind Pt); [apply set_instr_keep; exact U|]. intros y Y. apply cleared_keep in Y. revert Y. generalize (cleared y). clear. intros y Y.
  keep.
Qed.
Lemma data_event_keep t ev : Pt t -> holds Ptp (track_data_event t ev).
Proof.
  intros H. unfold track_data_event. cbv zeta. destruct (sm_data (un_sample (tr_unit t))); [|exact H].
  apply (holds_bind Pup); [apply data_callback_keep; destruct ev; exact H|]. intros [u r] U. unfold Pup in U. cbn [fst] in U.
  apply (holds_bind Pt); [destruct (r =? 0); [apply note_keep; exact U|exact U]|]. intros y Y.
  destruct ev; [destruct (r <? 0)|]; exact Y.
Qed.
Lemma instr_set_keep fuel t sl v so sl2 : Pt t -> holds Ptp (track_instr_set fuel t sl v so sl2).
Proof.
  intros H. unfold track_instr_set. destruct (tr_instr t) as [[id i]|]; [|exact H]. apply holds_any. intros [[i' s] code].
  destruct (negb _); [exact H|]. cbv zeta. apply (holds_bind Pt).
  { destruct (negb _); [apply mute_event_keep|]; exact H. }
  intros y Y. apply (holds_bind Pt); [apply update_keep; apply iflags_keep; exact Y|]. intros z Z1. exact Z1.
Qed.
Lemma instr_dispose_keep fuel t : Pt t -> holds Pt (track_instr_dispose fuel t).
Proof. intros H. unfold track_instr_dispose. keep. Qed.

Lemma tstep_keep fuel t o t' l : plain_op o = true -> Pt t -> tstep fuel t o = Ok (t', l) -> Pt t'.
Proof.
  intros P H E. assert (K : holds Ptp (tstep fuel t o)); [|rewrite E in K; exact K]. clear E.
  destruct o; try discriminate P; cbn [tstep].
  - apply (holds_bind Ptp); [apply track_attr_keep; [exact H|right; apply s32_in]|]. intros [y r] Y. exact Y.
  - apply (holds_bind Ptp); [apply track_ptr_keep; exact H|]. intros [y r] Y. exact Y.
  - apply (holds_bind Ptp); [apply data_event_keep; exact H|]. intros [y r] Y. exact Y.
  - apply (holds_bind Ptp); [apply instr_set_keep; exact H|]. intros [y r] Y. exact Y.
  - apply (holds_bind Pt); [apply instr_dispose_keep; exact H|]. intros y Y. exact Y.
  - apply (holds_bind Pt); [apply track_clear_keep; exact H|]. intros y Y. exact Y.
Qed.
