(** Contexts whose tracks differ only in volumes that are going to be replaced sound the same. *)
From Verif Require Import CInt CIntFacts TimeModel Kernels BufferModel DataModel UnitModel InterpModel ToneModel SequenceModel TrackModel ContextModel ResetSame TrackSame.
Ltac Zify.zify_post_hook ::= idtac.

(** ** Volumes *)
Lemma agree_refl l n : agree l l n.
Proof. intros i _. reflexivity. Qed.
Lemma aget_upd_same (l l' : list Z) i j x : length l = length l' -> aget l j = aget l' j -> aget (upd l (Z.to_nat i) x) j = aget (upd l' (Z.to_nat i) x) j.
Proof.
  unfold aget. rewrite !upd_length. intros E. rewrite E. destruct ((0 <=? j) && (j <? Z.of_nat (length l'))); [|reflexivity].
  rewrite !nth_error_upd. rewrite E. intros H. destruct (Nat.eqb _ _); [destruct (Nat.ltb _ _); reflexivity|exact H].
Qed.
Lemma aget_upd_new (l l' : list Z) i x : length l = length l' -> 0 <= i -> aget (upd l (Z.to_nat i) x) i = aget (upd l' (Z.to_nat i) x) i.
Proof.
  unfold aget. rewrite !upd_length. intros E Hi. rewrite E. destruct ((0 <=? i) && (i <? Z.of_nat (length l'))); [|reflexivity].
  rewrite !nth_error_upd, E, Nat.eqb_refl. reflexivity.
Qed.
Lemma agree_upd l l' i x n : length l = length l' -> agree l l' n -> agree (upd l (Z.to_nat i) x) (upd l' (Z.to_nat i) x) n.
Proof. intros E H j Hj. apply aget_upd_same; [exact E|apply H; exact Hj]. Qed.

(** ** Tracks *)
(** The volumes of all channels of the context are the same, *)
Definition Alike (t t' : track) : Prop := exists C pan V V', T C pan false V V' t t' /\ length V = length V' /\ (pan = true -> C = Some 2) /\
  (forall n, C = Some n -> agree V V' n).
(** or they are going to be set. *)
Definition Near (t t' : track) : Prop := exists C pan fv V V', T C pan fv V V' t t' /\ length V = length V' /\ (pan = true -> C = Some 2) /\
  (forall n, C = Some n -> fv = true \/ agree V V' n).
(** Nothing is known of them. *)
Definition Apart (t t' : track) : Prop := exists C pan V V', T C pan false V V' t t' /\ length V = length V' /\ (pan = true -> C = Some 2).

Lemma T_weak C pan fv V V' t t' : T C pan fv V V' t t' -> T C pan false V V' t t'.
Proof. intros (H1 & H2 & H3 & _). repeat split; try assumption; try apply H1. discriminate. Qed.
Lemma T_strong C pan fv V V' t t' : T C pan fv V V' t t' -> has t FVolume = true -> T C pan true V V' t t'.
Proof. intros (H1 & H2 & H3 & _) H4. repeat split; try assumption; try apply H1. intros _. exact H4. Qed.
Lemma Alike_Near t t' : Alike t t' -> Near t t'.
Proof. intros (C & pan & V & V' & H & E & P & A). exists C, pan, false, V, V'. repeat (split; [assumption|]). intros n En. right. apply A. exact En. Qed.
Lemma Near_Apart t t' : Near t t' -> Apart t t'.
Proof. intros (C & pan & fv & V & V' & H & E & P & A). exists C, pan, V, V'. split; [eapply T_weak; exact H|split; assumption]. Qed.

Lemma rrel_mono {A B} (P Q : A -> B -> Prop) r r' : (forall a b, P a b -> Q a b) -> rrel P r r' -> rrel Q r r'.
Proof. intros H. destruct r, r'; cbn; auto. Qed.
(** What holds for all volumes holds for these relations. *)
Lemma lift_near (f f' : res track) t t' : Near t t' -> (forall C pan fv V V', T C pan fv V V' t t' -> rrel (T C pan fv V V') f f') -> rrel Near f f'.
Proof.
  intros (C & pan & fv & V & V' & H & E & P & A) F. eapply rrel_mono; [|apply F; exact H]. intros a b X. exists C, pan, fv, V, V'. repeat (split; [assumption|]). exact A.
Qed.
Lemma lift_near2 {X} (f f' : res (track * X)) t t' : Near t t' -> (forall C pan fv V V', T C pan fv V V' t t' -> rrel (TR C pan fv V V') f f') -> rrel (fun p p' => Near (fst p) (fst p') /\ snd p = snd p') f f'.
Proof.
  intros (C & pan & fv & V & V' & H & E & P & A) F. eapply rrel_mono; [|apply F; exact H]. intros a b (Y & E2). split; [|exact E2]. exists C, pan, fv, V, V'. repeat (split; [assumption|]). exact A.
Qed.
Lemma lift_alike (f f' : res track) t t' : Alike t t' -> (forall C pan fv V V', T C pan fv V V' t t' -> rrel (T C pan fv V V') f f') -> rrel Alike f f'.
Proof.
  intros (C & pan & V & V' & H & E & P & A) F. eapply rrel_mono; [|apply F; exact H]. intros a b X. exists C, pan, V, V'. repeat (split; [assumption|]). exact A.
Qed.
Lemma T_has C pan fv V V' t t' k : T C pan fv V V' t t' -> has t' k = has t k.
Proof. intros (_ & -> & _). reflexivity. Qed.
Lemma Near_has t t' k : Near t t' -> has t' k = has t k.
Proof. intros (C & pan & fv & V & V' & H & _). eapply T_has. exact H. Qed.
Lemma Alike_has t t' k : Alike t t' -> has t' k = has t k.
Proof. intros H. apply Near_has, Alike_Near, H. Qed.
Lemma T_unit C pan fv V V' W W' C' t t' u u' : T C pan fv V V' t t' -> U C' W W' u u' -> T C' pan fv W W' (t_unit t u) (t_unit t' u').
Proof. intros (H1 & H2 & H3 & H4) H. rewrite H2. split; [exact H|split; [reflexivity|split; [exact H3|exact H4]]]. Qed.
Lemma T_put_any C pan fv fv' V V' t t' k b : T C pan fv V V' t t' -> (fv' = true -> has (put t k b) FVolume = true) ->
  T C (has (put t k b) FPan) fv' V V' (put t k b) (put t' k b).
Proof. intros (H1 & H2 & H3 & H4) H. rewrite H2. split; [exact H1|split; [reflexivity|split; [reflexivity|exact H]]]. Qed.

(** The volume of one channel. *)
Definition in_volumes (attr : Z) : Prop := BK_VOLUME_0 <= attr <= BK_VOLUME_7.
Lemma unit_volume u attr value : in_volumes attr ->
  BKUnitSetAttr u attr value = let* v := aset (un_volume u) (attr - BK_VOLUME_0) (BKClamp value 0 BK_MAX_VOLUME) in Ok (set_volume u v, 0).
Proof.
  intros H. unfold BKUnitSetAttr. cbv zeta. assert (H' := H). unfold in_volumes, BK_VOLUME_0, BK_VOLUME_7 in H'.
  rewrite (proj2 (Z.eqb_neq attr BK_DUTY_CYCLE)), (proj2 (Z.eqb_neq attr BK_WAVEFORM)), (proj2 (Z.eqb_neq attr BK_PHASE)), (proj2 (Z.eqb_neq attr BK_PHASE_WRAP)),
    (proj2 (Z.eqb_neq attr BK_PERIOD)), (proj2 (Z.eqb_neq attr BK_VOLUME)) by (unfold BK_DUTY_CYCLE, BK_WAVEFORM, BK_PHASE, BK_PHASE_WRAP, BK_PERIOD, BK_VOLUME; lia).
  replace ((BK_VOLUME_0 <=? attr) && (attr <=? BK_VOLUME_7)) with true by (unfold BK_VOLUME_0, BK_VOLUME_7; lia). reflexivity.
Qed.
Lemma U_volume C V V' u u' attr value : U C V V' u u' -> length V = length V' -> in_volumes attr ->
  let x := BKClamp value 0 BK_MAX_VOLUME in let i := Z.to_nat (attr - BK_VOLUME_0) in
  rrel (UR C (upd V i x) (upd V' i x)) (BKUnitSetAttr u attr value) (BKUnitSetAttr u' attr value).
Proof.
  intros H E Ha. cbv zeta. rewrite !unit_volume by exact Ha. destruct H as (-> & EV & EC). cbn [un_volume set_volume]. rewrite EV. unfold aset. rewrite E. destruct (_ && _); [|reflexivity].
  cbn [bind rrel]. split; [|reflexivity]. cbn [fst]. repeat split. cbn. exact EC.
Qed.
Lemma T_volume C pan fv V V' t t' attr value : T C pan fv V V' t t' -> length V = length V' -> in_volumes attr ->
  let x := BKClamp value 0 BK_MAX_VOLUME in let i := Z.to_nat (attr - BK_VOLUME_0) in
  rrel (T C pan fv (upd V i x) (upd V' i x)) (unit_attr t attr value) (unit_attr t' attr value).
Proof.
  intros H E Ha. cbv zeta. unfold unit_attr. eapply rrel_bind; [apply U_volume; [apply H|exact E|exact Ha]|]. intros (u & r) (u' & r') (X & _). cbn [fst] in X. cbn [rrel]. eapply T_unit; eassumption.
Qed.
(** The volumes of the unit are set: now they are the same. *)
Lemma Apart_volume t t' : Apart t t' -> rrel Alike (BKTrackUpdateUnitVolume t) (BKTrackUpdateUnitVolume t').
Proof.
  intros (C & pan & V & V' & H & E & P). unfold BKTrackUpdateUnitVolume. destruct (T_slot _ _ _ _ _ t t' 0 H) as (_ & _ & _ & _ & ->). apply rrel_same. intros (volume & panning).
  rewrite (T_has _ _ _ _ _ _ _ FPan H). destruct (negb _ && has t FPan) eqn:EP.
  - apply andb_prop in EP as (_ & EP). assert (Ep : pan = true) by (rewrite <- EP; symmetry; apply H). specialize (P Ep). cbv zeta. apply rrel_same. intros v0. apply rrel_same. intros v1.
    eapply rrel_bind; [apply (T_volume _ _ _ _ _ _ _ BK_VOLUME_0 v0 H E); split; discriminate|]. intros x x' X. cbv beta zeta in X.
    eapply rrel_mono; [|apply (T_volume _ _ _ _ _ _ _ (BK_VOLUME_0 + 1) v1 X); [rewrite !upd_length; exact E|split; discriminate]].
    intros y y' Y. eexists C, pan, _, _. split; [exact Y|]. split; [rewrite !upd_length; exact E|]. split; [intros _; exact P|]. intros n En. rewrite P in En. assert (n = 2) by congruence. subst n.
    change (BK_VOLUME_0 + 1 - BK_VOLUME_0) with 1. change (BK_VOLUME_0 - BK_VOLUME_0) with 0. intros i Hi. assert (Hc : i = 0 \/ i = 1) by lia. destruct Hc as [-> | ->].
    + apply aget_upd_same; [rewrite !upd_length; exact E|]. apply aget_upd_new; [exact E|lia].
    + apply aget_upd_new; [rewrite !upd_length; exact E|lia].
  - unfold unit_attr. cbn [rrel].
    assert (EB : forall u, BKUnitSetAttr u BK_VOLUME volume = Ok (set_volume u (repeat (BKClamp volume 0 BK_MAX_VOLUME) (Z.to_nat BK_MAX_CHANNELS)), 0)) by reflexivity.
    rewrite !EB. cbn [bind rrel]. eexists C, pan, _, _. split; [eapply T_unit; [exact H|]|split; [reflexivity|split; [exact P|intros n _; apply agree_refl]]].
    destruct H as ((-> & _ & EC) & _). repeat split. exact EC.
Qed.
Lemma Alike_put t t' k b : Alike t t' -> k <> FPan -> Alike (put t k b) (put t' k b).
Proof.
  intros (C & pan & V & V' & H & E & P & A) N. exists C, pan, V, V'. split; [|split; [exact E|split; assumption]].
  assert (Ep : has (put t k b) FPan = pan) by (rewrite <- (proj1 (proj2 (proj2 H))); destruct k; try reflexivity; contradiction).
  rewrite <- Ep. eapply T_put_any; [exact H|discriminate].
Qed.
Lemma Near_update t t' : Near t t' -> rrel Alike (BKTrackUpdateUnit t) (BKTrackUpdateUnit t').
Proof.
  intros H. unfold BKTrackUpdateUnit. apply (rrel_bind Alike).
  { rewrite (Near_has _ _ _ H). destruct (has t FVolume) eqn:EV.
    - eapply rrel_bind; [apply Apart_volume, Near_Apart, H|]. intros x x' X. cbn [rrel]. apply Alike_put; [exact X|discriminate].
    - destruct H as (C & pan & fv & V & V' & H & E & P & A). exists C, pan, V, V'. split; [eapply T_weak; exact H|split; [exact E|split; [exact P|]]]. intros n En. destruct (A n En) as [F|F]; [|exact F].
      pose proof (proj2 (proj2 (proj2 H)) F) as K. rewrite EV in K. discriminate. }
  clear H t t'. intros t t' H. apply (rrel_bind Alike).
  { rewrite (Alike_has _ _ _ H). destruct (has t FNote); [|exact H]. eapply rrel_bind; [eapply lift_alike; [exact H|]; intros; apply T_unit_note; assumption|]. intros x x' X. cbn [rrel]. apply Alike_put; [exact X|discriminate]. }
  clear H t t'. intros t t' H. rewrite (Alike_has _ _ _ H). destruct (has t FDuty); [|exact H]. eapply rrel_bind; [eapply lift_alike; [exact H|]; intros; apply T_unit_duty; assumption|]. intros x x' X. cbn [rrel]. apply Alike_put; [exact X|discriminate].
Qed.

Lemma Near_tick fuel t t' : Near t t' -> rrel Near (BKTrackTick fuel t) (BKTrackTick fuel t').
Proof.
  intros H.
  assert (E : forall x, BKTrackTick fuel x = bind (let t := BKTrackEffectUpdateFlags x in
    let* t := (if has t FArp then let* (d, tick) := BKDividerStateTick (tr_arpDiv t) in let t := t_arpDiv t d in if tick : bool then BKTrackArpeggioTick t else Ok t else Ok t) in
    (if has t FInstr then let* (d, tick) := BKDividerStateTick (tr_instrDiv t) in BKTrackInstrumentTick fuel (t_instrDiv t d) (if tick : bool then 1 else 0) else Ok t))
    (fun t => let* t := BKTrackUpdateUnit t in
      if any_effect t then let* (d, tick) := BKDividerStateTick (tr_effDiv t) in let t := t_effDiv t d in if tick : bool then BKTrackEffectTick t else Ok t else Ok t)).
  { intros x. unfold BKTrackTick. cbv zeta. destruct (if has (BKTrackEffectUpdateFlags x) FArp then _ else _); reflexivity. }
  rewrite !E. eapply rrel_bind; [eapply lift_near; [exact H|]; intros; apply T_tick_before; assumption|]. clear H E t t'. intros t t' H.
  eapply rrel_bind; [apply Near_update; exact H|]. clear H t t'. intros t t' H.
  eapply lift_near; [apply Alike_Near; exact H|]. intros. apply T_tick_behind. assumption.
Qed.
Lemma Near_set_attr fuel t t' attr value : Near t t' -> rrel (fun p p' => Near (fst p) (fst p') /\ snd p = snd p') (BKTrackSetAttr fuel t attr value) (BKTrackSetAttr fuel t' attr value).
Proof.
  intros H. destruct ((BK_VOLUME_0 <=? attr) && (attr <=? BK_VOLUME_7)) eqn:EA; [|eapply lift_near2; [exact H|]; intros; apply T_set_attr; assumption].
  assert (Ha : in_volumes attr) by (unfold in_volumes; lia).
  assert (E : forall x, BKTrackSetAttr fuel x attr value = let* (u, ret) := BKUnitSetAttr (tr_unit x) attr value in Ok (t_unit x u, ret)).
  { intros x. unfold BKTrackSetAttr. cbv zeta. assert (H' := Ha). unfold in_volumes, BK_VOLUME_0, BK_VOLUME_7 in H'.
    rewrite (proj2 (Z.eqb_neq attr BK_MASTER_VOLUME)), (proj2 (Z.eqb_neq attr BK_VOLUME)), (proj2 (Z.eqb_neq attr BK_PANNING)), (proj2 (Z.eqb_neq attr BK_WAVEFORM)), (proj2 (Z.eqb_neq attr BK_DUTY_CYCLE)),
      (proj2 (Z.eqb_neq attr BK_NOTE)), (proj2 (Z.eqb_neq attr BK_PITCH)), (proj2 (Z.eqb_neq attr BK_SAMPLE_PITCH)), (proj2 (Z.eqb_neq attr BK_ARPEGGIO_DIVIDER)), (proj2 (Z.eqb_neq attr BK_EFFECT_DIVIDER)),
      (proj2 (Z.eqb_neq attr BK_INSTRUMENT_DIVIDER)), (proj2 (Z.eqb_neq attr BK_TRIANGLE_IGNORES_VOLUME)), (proj2 (Z.eqb_neq attr BK_EFFECT_VOLUME_SLIDE)), (proj2 (Z.eqb_neq attr BK_EFFECT_PANNING_SLIDE)), (proj2 (Z.eqb_neq attr BK_EFFECT_PORTAMENTO));
      [reflexivity|unfold BK_MASTER_VOLUME, BK_VOLUME, BK_PANNING, BK_WAVEFORM, BK_DUTY_CYCLE, BK_NOTE, BK_PITCH, BK_SAMPLE_PITCH, BK_ARPEGGIO_DIVIDER, BK_EFFECT_DIVIDER, BK_INSTRUMENT_DIVIDER, BK_TRIANGLE_IGNORES_VOLUME, BK_EFFECT_VOLUME_SLIDE, BK_EFFECT_PANNING_SLIDE, BK_EFFECT_PORTAMENTO; lia..]. }
  rewrite !E. destruct H as (C & pan & fv & V & V' & H & EL & P & A).
  eapply rrel_bind; [apply U_volume; [apply H|exact EL|exact Ha]|]. intros (u & r) (u' & r') (X & Er). cbn [fst snd] in *. split; [|exact Er]. cbn [fst].
  eexists C, pan, fv, _, _. split; [eapply T_unit; [exact H|exact X]|]. split; [rewrite !upd_length; exact EL|]. split; [exact P|]. intros n En. destruct (A n En) as [F|F]; [left; exact F|right]. apply agree_upd; assumption.
Qed.
Lemma T_cleared C pan fv V V' t t' : T C pan fv V V' t t' -> T C pan false V V' (cleared t) (cleared t').
Proof. intros (H1 & H2 & H3 & H4). rewrite H2. split; [exact H1|split; [reflexivity|split; [exact H3|discriminate]]]. Qed.
Lemma T_volume_set C pan fv V V' fuel t t' v : T C pan fv V V' t t' -> rrel (TR C pan true V V') (BKTrackSetAttr fuel t BK_VOLUME v) (BKTrackSetAttr fuel t' BK_VOLUME v).
Proof.
  intros H. change (BKTrackSetAttr fuel t BK_VOLUME v) with (let* t := BKTrackSetVolume t v in Ok (t, 0)). change (BKTrackSetAttr fuel t' BK_VOLUME v) with (let* t := BKTrackSetVolume t' v in Ok (t, 0)).
  apply T_ok. destruct H as (H1 & H2 & H3 & _). rewrite H2. unfold BKTrackSetVolume. cbn [tr_volume t_unit]. apply rrel_same. intros s. split; [exact H1|split; [reflexivity|split; [exact H3|intros _; reflexivity]]].
Qed.
Lemma Apart_clear fuel t t' : Apart t t' -> rrel Near (BKTrackClear fuel t) (BKTrackClear fuel t').
Proof.
  intros (C & pan & V & V' & H & E & P). unfold BKTrackClear. cbv zeta.
  assert (EQ : tr_waveform t' = tr_waveform t /\ tr_duty t' = tr_duty t /\ tr_master t' = tr_master t) by (destruct H as (_ & -> & _); repeat split; reflexivity). destruct EQ as (-> & -> & ->).
  eapply rrel_bind; [apply U_clear, H|]. intros u u' Hu. eapply rrel_bind; [apply (T_set_instr C pan false V V'); eapply T_unit; [exact H|exact Hu]|]. intros x x' X.
  eapply rrel_bind; [exact (T_volume_set _ _ _ _ _ fuel _ _ _ (T_cleared _ _ _ _ _ _ _ X))|]. clear H u u' Hu x x' X.
  assert (G : forall y y' attr v, T C pan true V V' y y' -> (BK_VOLUME_0 <=? attr) && (attr <=? BK_VOLUME_7) = false -> rrel (TR C pan true V V') (BKTrackSetAttr fuel y attr v) (BKTrackSetAttr fuel y' attr v)) by (intros; apply T_set_attr; assumption).
  intros (x & r) (x' & r') (X & _). cbn [fst] in X.
  eapply rrel_bind; [apply G; [exact X|reflexivity]|]. clear x x' r r' X. intros (x & r) (x' & r') (X & _). cbn [fst] in X.
  eapply rrel_bind; [apply G; [exact X|reflexivity]|]. clear x x' r r' X. intros (x & r) (x' & r') (X & _). cbn [fst] in X.
  eapply rrel_bind; [apply G; [exact X|reflexivity]|]. clear x x' r r' X. intros (x & r) (x' & r') (X & _). cbn [fst] in X.
  eapply rrel_bind; [apply G; [exact X|reflexivity]|]. clear x x' r r' X. intros (x & r) (x' & r') (X & _). cbn [fst] in X.
  eapply rrel_bind; [apply G; [exact X|reflexivity]|]. clear x x' r r' X. intros (x & r) (x' & r') (X & _). cbn [fst] in X.
  cbn [rrel]. exists C, pan, true, V, V'. repeat (split; [assumption|]). intros n _. left. reflexivity.
Qed.
Lemma Apart_reset fuel t t' : Apart t t' -> rrel Near (BKTrackReset fuel t) (BKTrackReset fuel t').
Proof.
  intros (C & pan & V & V' & H & E & P). unfold BKTrackReset. eapply rrel_bind; [apply U_reset, H|]. intros u u' Hu.
  eapply rrel_bind; [apply (T_set_attr C pan false V V'); [eapply T_unit; [exact H|exact Hu]|reflexivity]|]. intros (x & r) (x' & r') (X & _). cbn [fst] in X.
  apply Apart_clear. exists C, pan, V, V'. repeat (split; [assumption|]). exact P.
Qed.
Lemma Near_attach t t' n rate time : Near t t' -> rrel (fun p p' => Near (fst p) (fst p') /\ snd p = snd p') (BKTrackAttach t n rate time) (BKTrackAttach t' n rate time).
Proof.
  intros (C & pan & fv & V & V' & H & E & P & A). unfold BKTrackAttach, BKUnitAttach.
  assert (EC : un_ctx (tr_unit t) = C) by apply H. assert (EC' : un_ctx (tr_unit t') = C) by (destruct H as ((-> & _ & EC'') & _); exact EC''). rewrite EC, EC'. destruct C as [k|].
  - cbn [Z.eqb]. change (BK_INVALID_STATE =? 0) with false. cbv iota. split; [|reflexivity]. cbn [fst]. exists (Some k), pan, fv, V, V'. split; [eapply T_unit; [exact H|apply H]|]. repeat (split; [assumption|]). exact A.
  - assert (Ep : pan = false) by (destruct pan; [specialize (P eq_refl); discriminate|reflexivity]). subst pan. change (0 =? 0) with true. cbv iota zeta.
    apply (rrel_bind Alike); [|intros x x' X; split; [apply Alike_Near; exact X|reflexivity]]. apply Near_update.
    assert (H1 : T (Some n) false fv V V' (t_rate (t_unit t (set_time (set_ctx (tr_unit t) (Some n)) time)) rate) (t_rate (t_unit t' (set_time (set_ctx (tr_unit t') (Some n)) time)) rate)).
    { destruct H as ((-> & EV & _) & H2 & H3 & H4). rewrite H2. split; [split; [reflexivity|split; [exact EV|reflexivity]]|split; [reflexivity|split; [exact H3|exact H4]]]. }
    revert H1. generalize (t_rate (t_unit t (set_time (set_ctx (tr_unit t) (Some n)) time)) rate) (t_rate (t_unit t' (set_time (set_ctx (tr_unit t') (Some n)) time)) rate). intros x x' X.
    destruct (n =? 2) eqn:En.
    + apply Z.eqb_eq in En. subst n. exists (Some 2), true, true, V, V'. split; [|repeat split; try assumption; intros; left; reflexivity].
      destruct X as (X1 & X2 & X3 & _). rewrite X2. split; [exact X1|split; [reflexivity|split; [reflexivity|intros _; reflexivity]]].
    + exists (Some n), false, true, V, V'. split; [|repeat split; try assumption; try discriminate; intros; left; reflexivity].
      destruct X as (X1 & X2 & X3 & _). rewrite X2. split; [exact X1|split; [reflexivity|split; [exact X3|intros _; reflexivity]]].
Qed.
Lemma Near_detach t t' : Near t t' -> Near (BKTrackDetach t) (BKTrackDetach t').
Proof.
  intros (C & pan & fv & V & V' & H & E & P & A). exists None, false, fv, V, V'. split; [|split; [exact E|split; discriminate]].
  unfold BKTrackDetach, BKUnitDetach. destruct H as ((-> & EV & EC) & H2 & H3 & H4). rewrite H2. cbn [tr_unit t_unit set_volume un_ctx].
  destruct (un_ctx (tr_unit t)) eqn:Ec; (split; [split; [reflexivity|split; [exact EV|first [reflexivity|exact Ec]]]|split; [reflexivity|split; [reflexivity|exact H4]]]).
Qed.
Lemma Near_run fuel t t' e : Near t t' -> rrel (fun p p' => Near (fst p) (fst p') /\ snd p = snd p') (BKTrackRun fuel t e) (BKTrackRun fuel t' e).
Proof.
  intros H. unfold BKTrackRun. eapply rrel_bind; [apply Near_update; exact H|]. clear H t t'. intros t t' (C & pan & V & V' & H & E & P & A).
  eapply rrel_bind; [apply U_run; [apply H|exact A]|]. intros (u & l) (u' & l') (X & El). cbn [fst snd] in *. split; [|exact El]. cbn [fst].
  apply Alike_Near. exists C, pan, V, V'. split; [eapply T_unit; [exact H|exact X]|]. repeat (split; [assumption|]). exact A.
Qed.
Lemma Near_end t t' e : Near t t' -> Near (t_unit t (BKUnitEnd (tr_unit t) e)) (t_unit t' (BKUnitEnd (tr_unit t') e)).
Proof.
  intros (C & pan & fv & V & V' & H & E & P & A). exists C, pan, fv, V, V'. split; [eapply T_unit; [exact H|apply U_end, H]|]. repeat (split; [assumption|]). exact A.
Qed.
Lemma T_istate C pan fv V V' t t' i s : T C pan fv V V' t t' -> T C pan fv V V' (t_istate (t_instr t i) s) (t_istate (t_instr t' i) s).
Proof. intros (H1 & H2 & H3 & H4). rewrite H2. split; [exact H1|split; [reflexivity|split; assumption]]. Qed.
Lemma Near_instr_set fuel t t' slot v so sl : Near t t' -> rrel (fun p p' => Near (fst p) (fst p') /\ snd p = snd p') (track_instr_set fuel t slot v so sl) (track_instr_set fuel t' slot v so sl).
Proof.
  intros H. unfold track_instr_set. assert (EI : tr_instr t' = tr_instr t /\ tr_istate t' = tr_istate t) by (destruct H as (C & pan & fv & V & V' & (_ & -> & _) & _); split; reflexivity). destruct EI as (-> & ->).
  destruct (tr_instr t) as [(id & i)|]; [|split; [exact H|reflexivity]]. apply rrel_same. intros [[i' s] code]. destruct (negb (code =? 0)); [split; [exact H|reflexivity]|]. cbv zeta.
  apply (rrel_bind Near).
  - eapply lift_near; [exact H|]. intros C pan fv V V' HT. pose proof (T_istate _ _ _ _ _ _ _ (Some (id, i')) s HT) as H1. destruct (negb _); [apply T_mute_event|]; exact H1.
  - clear H. intros x x' X. eapply rrel_bind; [apply Near_update|intros y y' Y; split; [apply Alike_Near; exact Y|reflexivity]].
    assert (G : rrel Near (Ok (BKTrackInstrumentUpdateFlags x true)) (Ok (BKTrackInstrumentUpdateFlags x' true))); [|exact G]. eapply lift_near; [exact X|]. intros. apply T_instr_flags. assumption.
Qed.
Lemma Near_dispose fuel t t' : Near t t' -> rrel Near (track_instr_dispose fuel t) (track_instr_dispose fuel t').
Proof.
  intros H. unfold track_instr_dispose. assert (EI : tr_instr t' = tr_instr t) by (destruct H as (C & pan & fv & V & V' & (_ & -> & _) & _); reflexivity). rewrite EI. destruct (tr_instr t); [|exact H].
  eapply rrel_bind; [eapply lift_near; [exact H|]; intros; apply T_set_instr; assumption|]. intros x x' X. eapply lift_near; [exact X|]. intros. apply T_state_instr. assumption.
Qed.
Definition NearR {A} (p p' : track * A) : Prop := Near (fst p) (fst p') /\ snd p = snd p'.
Lemma near_out {A B} (r r' : res (track * A)) (d : B) : rrel NearR r r' -> rrel NearR (let* (t, _) := r in Ok (t, d)) (let* (t, _) := r' in Ok (t, d)).
Proof. intros H. eapply rrel_bind; [exact H|]. intros (x & ?) (x' & ?) (X & _). split; [exact X|reflexivity]. Qed.
Lemma near_out1 {B} (r r' : res track) (d : B) : rrel Near r r' -> rrel NearR (let* t := r in Ok (t, d)) (let* t := r' in Ok (t, d)).
Proof. intros H. eapply rrel_bind; [exact H|]. intros x x' X. split; [exact X|reflexivity]. Qed.
(** Everything a client can do with a track. *)
Theorem Near_step fuel t t' o : Near t t' -> rrel NearR (tstep fuel t o) (tstep fuel t' o).
Proof.
  intros H. destruct o; cbn [tstep].
  - apply near_out, Near_set_attr, H.
  - apply near_out. eapply lift_near2; [exact H|]. intros. apply T_set_ptr. assumption.
  - apply near_out. eapply lift_near2; [exact H|]. intros. apply T_data_event. assumption.
  - apply near_out, Near_instr_set, H.
  - apply near_out1, Near_dispose, H.
  - apply near_out1, Near_tick, H.
  - apply Near_run, H.
  - split; [apply Near_end, H|reflexivity].
  - apply near_out, Near_attach, H.
  - split; [apply Near_detach, H|reflexivity].
  - apply near_out1, Apart_clear, Near_Apart, H.
  - apply near_out1, Apart_reset, Near_Apart, H.
Qed.

(** ** Contexts *)
Definition Same (t t' : track) : Prop := t = t' \/ Near t t'.
Definition SameT (p p' : Z * track) : Prop := fst p = fst p' /\ Same (snd p) (snd p').
Lemma Same_of f x x' : Same x x' -> (Near x x' -> rrel Near (f x) (f x')) -> rrel Same (f x) (f x').
Proof. intros [-> | H] K; [apply rrel_eq; [left; reflexivity|reflexivity]|]. eapply rrel_mono; [|apply K; exact H]. intros a b X. right. exact X. Qed.
Lemma Same_of2 {A} (f : track -> res (track * A)) x x' : Same x x' -> (Near x x' -> rrel NearR (f x) (f x')) -> rrel (fun p p' => Same (fst p) (fst p') /\ snd p = snd p') (f x) (f x').
Proof. intros [-> | H] K; [apply rrel_eq; [split; [left; reflexivity|reflexivity]|reflexivity]|]. eapply rrel_mono; [|apply K; exact H]. intros a b (X & E). split; [right; exact X|exact E]. Qed.
Definition Sames := Forall2 SameT.
Lemma Sames_refl ts : Sames ts ts.
Proof. induction ts; constructor; [|exact IHts]. split; [reflexivity|left; reflexivity]. Qed.
Lemma on_track_same f ts ts' id : Sames ts ts' -> (forall t t', Same t t' -> rrel Same (f t) (f t')) -> rrel Sames (on_track f ts id) (on_track f ts' id).
Proof.
  intros H F. induction H as [|(i & t) (i' & t') ts ts' (E & Ht) Hs IH]; cbn [on_track fst snd] in *; [constructor|]. subst i'. destruct (i =? id).
  - eapply rrel_bind; [apply F; exact Ht|]. intros a a' Ha. constructor; [split; [reflexivity|exact Ha]|exact Hs].
  - eapply rrel_bind; [exact IH|]. intros a a' Ha. constructor; [split; [reflexivity|exact Ht]|exact Ha].
Qed.
Lemma call_same fuel ts ts' c : Sames ts ts' -> rrel Sames (call_track fuel ts c) (call_track fuel ts' c).
Proof.
  intros H. apply on_track_same; [exact H|]. intros t t' Ht. apply (Same_of (fun t => let* (t, _) := tstep fuel t (snd c) in Ok t)); [exact Ht|]. intros N.
  eapply rrel_bind; [apply Near_step; exact N|]. intros (x & ?) (x' & ?) (X & _). exact X.
Qed.
Lemma calls_same fuel cs : forall ts ts', Sames ts ts' -> rrel Sames (call_tracks fuel ts cs) (call_tracks fuel ts' cs).
Proof. induction cs as [|c cs IH]; intros ts ts' H; cbn [call_tracks]; [exact H|]. eapply rrel_bind; [apply call_same; exact H|]. intros a a' Ha. apply IH. exact Ha. Qed.
Lemma ticks_same fuel ts ts' : Sames ts ts' -> rrel Sames (tick_tracks fuel ts) (tick_tracks fuel ts').
Proof.
  intros H. induction H as [|(i & t) (i' & t') ts ts' (E & Ht) Hs IH]; cbn [tick_tracks fst snd] in *; [constructor|]. subst i'.
  eapply rrel_bind; [apply (Same_of (BKTrackTick fuel)); [exact Ht|apply Near_tick]|]. intros a a' Ha. eapply rrel_bind; [exact IH|]. intros b b' Hb. constructor; [split; [reflexivity|exact Ha]|exact Hb].
Qed.
Lemma resets_same fuel ts ts' : Sames ts ts' -> rrel Sames (reset_tracks fuel ts) (reset_tracks fuel ts').
Proof.
  intros H. induction H as [|(i & t) (i' & t') ts ts' (E & Ht) Hs IH]; cbn [reset_tracks fst snd] in *; [constructor|]. subst i'.
  eapply rrel_bind; [apply (Same_of (BKTrackReset fuel)); [exact Ht|intros N; apply Apart_reset, Near_Apart, N]|]. intros a a' Ha. eapply rrel_bind; [exact IH|]. intros b b' Hb. constructor; [split; [reflexivity|exact Ha]|exact Hb].
Qed.
Lemma clock_same e fuel ts ts' k : Sames ts ts' -> rrel (fun p p' => Sames (fst p) (fst p') /\ snd p = snd p') (BKClockTick e fuel ts k) (BKClockTick e fuel ts' k).
Proof.
  intros H. unfold BKClockTick. destruct (BKTimeIsEqual _ _); [|split; [exact H|reflexivity]]. eapply rrel_bind; [apply calls_same; exact H|]. intros a a' Ha.
  apply (rrel_bind Sames); [destruct (_ =? 0); [apply ticks_same|]; exact Ha|]. intros b b' Hb. cbv zeta. apply rrel_same. intros (p & nt). split; [exact Hb|reflexivity].
Qed.
Lemma clocks_same e fuel ks : forall ts ts' nt, Sames ts ts' -> rrel (fun p p' => Sames (fst (fst p)) (fst (fst p')) /\ snd (fst p) = snd (fst p') /\ snd p = snd p') (tick_clocks e fuel ts ks nt) (tick_clocks e fuel ts' ks nt).
Proof.
  induction ks as [|k ks IH]; intros ts ts' nt H; cbn [tick_clocks]; [repeat split; exact H|]. eapply rrel_bind; [apply clock_same; exact H|]. intros (a & k1) (a' & k1') (Ha & Ek). cbn [fst snd] in *. subst k1'. cbv zeta.
  eapply rrel_bind; [apply IH; exact Ha|]. intros [[b l] n2] [[b' l'] n2'] (Hb & E1 & E2). cbn [fst snd] in *. subst. repeat split. exact Hb.
Qed.
Definition SameC (c c' : context) : Prop := Sames (cx_tracks c) (cx_tracks c') /\ c' = x_tracks c (cx_tracks c').
Definition SameCR {A} (p p' : context * A) : Prop := SameC (fst p) (fst p') /\ snd p = snd p'.
Lemma SameC_in c c' : SameC c c' -> exists a b d f ks ts ts' chs, c = mk_context a b d f ks ts chs /\ c' = mk_context a b d f ks ts' chs /\ Sames ts ts'.
Proof. intros (H1 & H2). destruct c, c'. unfold x_tracks in H2. cbn in *. rewrite H2. do 8 eexists. split; [reflexivity|split; [reflexivity|exact H1]]. Qed.
Lemma SameC_mk a b d f ks ts ts' chs : Sames ts ts' -> SameC (mk_context a b d f ks ts chs) (mk_context a b d f ks ts' chs).
Proof. intros H. split; [exact H|reflexivity]. Qed.
Ltac cred := cbn [cx_rate cx_period cx_current cx_delta cx_clocks cx_tracks cx_channels x_current x_delta x_clocks x_tracks x_channels fst snd].
Ltac cin H := destruct (SameC_in _ _ H) as (? & ? & ? & ? & ? & ? & ? & ? & -> & -> & ?).
Lemma advance_same e fuel c c' : SameC c c' -> rrel SameCR (BKClocksAdvance e fuel c) (BKClocksAdvance e fuel c').
Proof.
  intros H. cin H. unfold BKClocksAdvance. cred. eapply rrel_bind; [apply clocks_same; eassumption|]. intros [[a l] n2] [[a' l'] n2'] (Ha & E1 & E2). cbn [fst snd] in *. subst.
  apply rrel_same. intros dt. cbv zeta. apply rrel_same. intros ks. apply rrel_same. intros t. split; [apply SameC_mk; exact Ha|reflexivity].
Qed.
Lemma Same_time t t' : Same t t' -> un_time (tr_unit t') = un_time (tr_unit t).
Proof. intros [-> | (C & pan & fv & V & V' & ((-> & _) & _) & _)]; reflexivity. Qed.
Lemma runs_same fuel time ts ts' : Sames ts ts' -> forall chs, rrel (fun p p' => Sames (fst p) (fst p') /\ snd p = snd p') (run_tracks fuel ts chs time) (run_tracks fuel ts' chs time).
Proof.
  intros H. induction H as [|(i & t) (i' & t') ts ts' (E & Ht) Hs IH]; intros chs; cbn [run_tracks fst snd] in *; [split; [constructor|reflexivity]|]. subst i'.
  eapply rrel_bind; [apply (Same_of2 (fun t => BKTrackRun fuel t time)); [exact Ht|apply Near_run]|]. intros (a & l) (a' & l') (Ha & El). cbn [fst snd] in *. subst l'. rewrite (Same_time _ _ Ha).
  apply rrel_same. intros chs1. eapply rrel_bind; [apply IH|]. intros (b & ch) (b' & ch') (Hb & Ec). cbn [fst snd] in *. subst ch'. split; [|reflexivity]. constructor; [split; [reflexivity|exact Ha]|exact Hb].
Qed.
Lemma run_units_same fuel c c' time : SameC c c' -> rrel SameC (run_units fuel c time) (run_units fuel c' time).
Proof. intros H. cin H. unfold run_units. cred. eapply rrel_bind; [apply runs_same; eassumption|]. intros (a & ch) (a' & ch') (Ha & E). cbn [fst snd] in *. subst. apply SameC_mk. exact Ha. Qed.
Lemma run_loop_same e fuel n : forall c c' t t2, SameC c c' -> rrel SameCR (run_loop n e fuel c t t2) (run_loop n e fuel c' t t2).
Proof.
  induction n as [|n IH]; intros c c' t t2 H; cbn [run_loop]; (destruct (t <? t2); [|split; [exact H|reflexivity]]); [reflexivity|].
  eapply rrel_bind; [apply advance_same; exact H|]. intros (a & d) (a' & d') (Ha & E). cbn [fst snd] in *. subst d'. cbv zeta. eapply rrel_bind; [apply run_units_same; exact Ha|]. intros b b' Hb. apply IH. exact Hb.
Qed.
Lemma context_run_same n e fuel c c' t : SameC c c' -> rrel SameC (BKContextRun n e fuel c t) (BKContextRun n e fuel c' t).
Proof.
  intros H. unfold BKContextRun. assert (E : cx_clocks c' = cx_clocks c /\ cx_delta c' = cx_delta c) by (cin H; split; reflexivity). destruct E as (-> & ->). destruct (cx_clocks c); [apply run_units_same; exact H|].
  eapply rrel_bind; [apply run_loop_same; exact H|]. intros (a & d) (a' & d') (Ha & E). cbn [fst snd] in *. subst d'. cin Ha. apply SameC_mk. assumption.
Qed.
Lemma ends_same time ts ts' : Sames ts ts' -> Sames (map (end_track time) ts) (map (end_track time) ts').
Proof.
  intros K. induction K as [|(i & x) (i' & x') ts ts' (E & Ht) Hs IH]; cbn [map]; constructor; [|exact IH]. split; [exact E|]. unfold end_track. cbn [fst snd] in *.
  destruct Ht as [-> | Ht]; [left; reflexivity|right; apply Near_end; exact Ht].
Qed.
Lemma end_same n e fuel c c' t : SameC c c' -> rrel SameC (BKContextEnd n e fuel c t) (BKContextEnd n e fuel c' t).
Proof.
  intros H. unfold BKContextEnd. eapply rrel_bind; [apply context_run_same; exact H|]. intros a a' Ha. cin Ha. cbv zeta. cred. apply SameC_mk.
  apply ends_same. assumption.
Qed.
Lemma read_same c c' size : SameC c c' -> rrel (fun p p' => SameC (fst (fst p)) (fst (fst p')) /\ snd (fst p) = snd (fst p') /\ snd p = snd p') (BKContextRead c size) (BKContextRead c' size).
Proof. intros H. cin H. unfold BKContextRead. cred. apply rrel_same. intros [[chs s] l]. split; [apply SameC_mk; assumption|split; reflexivity]. Qed.
Definition SameCRR {A B} (p p' : context * A * B) : Prop := SameC (fst (fst p)) (fst (fst p')) /\ snd (fst p) = snd (fst p') /\ snd p = snd p'.
Lemma generate_same n e fuel m : forall c c' r w, SameC c c' -> rrel SameCRR (generate_loop m n e fuel c r w) (generate_loop m n e fuel c' r w).
Proof.
  induction m as [|m IH]; intros c c' r w H; cbn [generate_loop]; [reflexivity|]. cbv zeta. eapply rrel_bind; [apply end_same; exact H|]. intros a a' Ha. eapply rrel_bind; [apply read_same; exact Ha|].
  intros [[b s] l] [[b' s'] l'] (Hb & E1 & E2). cbn [fst snd] in *. subst. destruct (negb _); [|split; [exact Hb|split; reflexivity]].
  eapply rrel_bind; [apply IH; exact Hb|]. intros [[d s] l] [[d' s2] l2] (Hd & E1 & E2). cbn [fst snd] in *. subst. split; [exact Hd|split; reflexivity].
Qed.
Lemma generate_to_same n e fuel write t m : forall c c' k b, SameC c c' -> rrel SameCRR (generate_to_loop m n e fuel write c t k b) (generate_to_loop m n e fuel write c' t k b).
Proof.
  induction m as [|m IH]; intros c c' k b H; cbn [generate_to_loop]; (assert (E : cx_current c' = cx_current c) by (cin H; reflexivity)); rewrite E; (destruct (BKTimeIsLess _ _); [|split; [exact H|split; reflexivity]]); [reflexivity|].
  apply rrel_same. intros dt. cbv zeta. eapply rrel_bind; [apply end_same; exact H|]. intros a a' Ha. assert (E1 : BKContextSize a' = BKContextSize a /\ cx_current a' = cx_current a) by (cin Ha; split; reflexivity). destruct E1 as (-> & ->).
  apply rrel_same. intros size. destruct (_ || _); [|apply IH; exact Ha]. eapply rrel_bind; [apply read_same; exact Ha|]. intros [[d s] l] [[d' s'] l'] (Hd & E1 & E2). cbn [fst snd] in *. subst.
  apply rrel_same. intros nf. destruct (negb _); [split; [exact Hd|split; reflexivity]|]. eapply rrel_bind; [apply IH; exact Hd|]. intros [[g s] l] [[g' s2] l2] (Hg & E1 & E2). cbn [fst snd] in *. subst. split; [exact Hg|split; reflexivity].
Qed.
Lemma reset_same fuel c c' : SameC c c' -> rrel SameC (BKContextReset fuel c) (BKContextReset fuel c').
Proof. intros H. cin H. unfold BKContextReset. cred. eapply rrel_bind; [apply resets_same; eassumption|]. intros a a' Ha. apply SameC_mk. exact Ha. Qed.
(** Everything a client can do with a context. *)
Theorem same_step m n e fuel c c' o : SameC c c' -> rrel SameCR (xstep m n e fuel c o) (xstep m n e fuel c' o).
Proof.
  intros H. destruct o; cbn [xstep].
  - cin H. split; [apply SameC_mk; assumption|reflexivity].
  - cin H. unfold attach_track, numChannels. cred. apply (rrel_bind (@SameCR Z)); [|intros (y & r) (y' & r') (Y & _); split; [exact Y|reflexivity]]. apply rrel_same. intros (t1 & ret). destruct (ret =? 0).
    + split; [|reflexivity]. unfold attach_master. cred. assert (HS : forall ts ts' (y : Z * track), Sames ts ts' -> Sames (ts ++ [y]) (ts' ++ [y])) by (intros ts ts' y K; apply Forall2_app; [exact K|apply Sames_refl]).
      destruct (BKTimeIsGreater _ _); [destruct (existsb _ _)|]; apply SameC_mk; apply HS; assumption.
    + split; [apply SameC_mk; assumption|reflexivity].
  - cin H. split; [|reflexivity]. unfold detach_track. cred. apply SameC_mk. match goal with K : Sames _ _ |- _ => revert K end. clear. intros K.
    induction K as [|(i & x) (i' & x') ts ts' (E & Ht) Hs IH]; cbn [filter fst snd] in *; [constructor|]. subst i'. destruct (negb _); [constructor; [split; [reflexivity|exact Ht]|exact IH]|exact IH].
  - cin H. cred. eapply rrel_bind; [apply call_same; eassumption|]. intros a a' Ha. split; [apply SameC_mk; exact Ha|reflexivity].
  - cin H. split; [|reflexivity]. unfold set_clock_period. cred. destruct (BKTimeIsGreater _ _); apply SameC_mk; assumption.
  - cin H. split; [apply SameC_mk; assumption|reflexivity].
  - eapply rrel_bind; [apply generate_same; exact H|]. intros [[d s] l] [[d' s'] l'] (Hd & _ & E2). cbn [fst snd] in *. subst. split; [exact Hd|reflexivity].
  - eapply rrel_bind; [apply end_same; exact H|]. intros a a' Ha. split; [exact Ha|reflexivity].
  - eapply rrel_bind; [apply read_same; exact H|]. intros [[d s] l] [[d' s'] l'] (Hd & _ & E2). cbn [fst snd] in *. subst. split; [exact Hd|reflexivity].
  - eapply rrel_bind; [apply generate_to_same; exact H|]. intros [[d s] l] [[d' s'] l'] (Hd & _ & E2). cbn [fst snd] in *. subst. split; [exact Hd|reflexivity].
  - eapply rrel_bind; [apply reset_same; exact H|]. intros a a' Ha. split; [exact Ha|reflexivity].
Qed.
Theorem same_runs m n e fuel ops : forall c c', SameC c c' -> rrel SameCR (xruns m n e fuel c ops) (xruns m n e fuel c' ops).
Proof.
  induction ops as [|o ops IH]; intros c c' H; cbn [xruns]; [split; [exact H|reflexivity]|]. eapply rrel_bind; [apply same_step; exact H|]. intros (a & l) (a' & l') (Ha & E). cbn [fst snd] in *. subst l'.
  eapply rrel_bind; [apply IH; exact Ha|]. intros (b & ls) (b' & ls') (Hb & E). cbn [fst snd] in *. subst. split; [exact Hb|reflexivity].
Qed.
