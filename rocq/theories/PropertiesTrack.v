(** Properties of tracks: C44-C49, C65, C74-C80. *)
From Verif Require Import CInt CIntFacts DataModel UnitModel UnitSpec UnitProofs UnitProofs2 UnitProofs5 UnitInv UnitInv2 UnitInv3 UnitCount
  InterpModel InterpProofs IntervalProofs SlideIn ToneModel PropertiesTone SequenceModel InstrBounds TrackModel TrackSpec TrackInv TrackProofs TrackProofs2
  TrackProofs3 TrackProofs4 TrackProofs5 TrackProofs6 TrackVolume TrackPlay TrackTicks TrackNote TrackAttrs TrackLaws.
Ltac Zify.zify_post_hook ::= idtac.

(** A track after calls. *)
Definition calls (fuel : nat) (waveform : Z) (ops : list top) : res track :=
  let* t := BKTrackInit fuel waveform in let* (t, _) := truns fuel t ops in Ok t.
Definition track_after (waveform : Z) (ops : list top) : track :=
  match calls 1000 waveform ops with Ok t => t | Err _ => track0 end.

Lemma reachable_after waveform ops : waveform_phases (s32 waveform) <> None ->
  match BKTrackInit 1000 waveform with Ok t0 => all_top_ok 1000 t0 ops | Err _ => False end -> reachable 1000 (track_after waveform ops).
Proof.
  intros HW HO. unfold track_after, calls. destruct (init_ok 1000 waveform HW) as (t0 & E0 & H0). rewrite E0 in *. cbn [bind].
  destruct (truns_ok 1000 ops t0 H0 HO) as (t & ls & E & _). rewrite E. cbn [bind]. exists waveform, ops, t0, ls. auto.
Qed.

(** [all_top_ok] of a concrete history. *)
(** A test for the calls of the examples. *)
Definition fine (t : track) (o : top) : bool :=
  match o with
  | OAttr attr value =>
    in_u32 attr && in_s32 value && negb ((attr =? BK_PERIOD) || (attr =? BK_SAMPLE_PERIOD) || (attr =? BK_FLAG_RELEASE)) &&
    (negb ((attr =? BK_NOTE) && (value =? BK_NOTE_RELEASE)) || negb (un_sustain (tr_unit t))) &&
    (negb ((attr =? BK_ARPEGGIO_DIVIDER) || (attr =? BK_EFFECT_DIVIDER) || (attr =? BK_INSTRUMENT_DIVIDER)) || (1 <=? value))
  | OPtr attr TNull size => in_u32 attr && (0 <=? size)
  | OPtr attr (TInts (n :: notes)) size =>
    in_u32 attr && (0 <=? size) && forallb (fun v => Z.abs v <=? MAX_NOTE) (n :: notes) &&
    (((attr =? BK_ARPEGGIO) && (0 <=? n) && (Z.min 8 n <=? Z.of_nat (length notes))) ||
     ((attr_type attr =? BK_EFFECT_TYPE) && (Z.min 3 (size / 4) <=? Z.of_nat (length (n :: notes)))))
  | OTick | ODetach | OClear | OReset => true
  | OEnd time => in_u32 time
  | OAttach n rate time => (1 <=? n) && (n <=? 8) && in_u32 time && (sm_numChannels (un_sample (tr_unit t)) <=? 1)
  | _ => false
  end.
Fixpoint all_fine (fuel : nat) (t : track) (ops : list top) : bool :=
  match ops with
  | [] => true
  | o :: ops => fine t o && match tstep fuel t o with Ok (t, _) => all_fine fuel t ops | Err _ => true end
  end.
Lemma fine_ok fuel t o : fine t o = true -> top_ok fuel t o.
Proof.
  destruct o as [attr value|attr ptr size|ev|slot v so sl| | |e|e|n r e| | |]; cbn [fine top_ok]; intros H; try discriminate H; try exact I.
  - apply andb_true_iff in H; destruct H as (H & H5). apply andb_true_iff in H; destruct H as (H & H4). apply andb_true_iff in H; destruct H as (H & H3). apply andb_true_iff in H; destruct H as (H1 & H2).
    split; [exact H1|]. split; [exact H2|]. split; [|split].
    + intros [-> | ->]; cbn in *; discriminate.
    + intros [(-> & _)|(-> & ->)]; cbn in *; [discriminate|]. unfold release_ok. intros C. rewrite C in *. discriminate.
    + intros [-> |[-> | ->]]; cbn in *; lia.
  - destruct ptr as [|? ? ?|? ?|mem|?]; try discriminate H; [apply andb_true_iff in H; destruct H as (H1 & H2); split; [exact H1|]; split; [lia|exact I]|].
    destruct mem as [|n notes]; [discriminate H|]. apply andb_true_iff in H. destruct H as (H & K). apply andb_true_iff in H. destruct H as (H & F). apply andb_true_iff in H. destruct H as (H1 & H2).
    split; [exact H1|]. split; [lia|]. assert (FA : Forall (fun v => Z.abs v <= MAX_NOTE) (n :: notes)).
    { apply Forall_forall. intros x X. rewrite forallb_forall in F. specialize (F x X). lia. }
    apply orb_true_iff in K. destruct K as [K|K]; [right|left].
    + apply andb_true_iff in K. destruct K as (K & K3). apply andb_true_iff in K. destruct K as (K1 & K2). split; [lia|]. right. exists n, notes. split; [reflexivity|]. split; [lia|]. split; [lia|]. inversion FA; assumption.
    + apply andb_true_iff in K. destruct K as (K1 & K2). split; [lia|]. split; [lia|]. split.
      * apply Forall_forall. intros x X. rewrite Forall_forall in FA. specialize (FA x X). unfold in_s32, MAX_NOTE in *. lia.
      * intros _. destruct notes as [|m notes]; cbn [nth]; [unfold MAX_VIBRATO; lia|]. inversion FA as [|? ? _ FB]; subst. inversion FB; subst. unfold MAX_NOTE, MAX_VIBRATO in *. lia.
  - exact H.
  - apply andb_true_iff in H; destruct H as (H & H4). apply andb_true_iff in H; destruct H as (H & H3). apply andb_true_iff in H; destruct H as (H1 & H2). split; [lia|]. split; [exact H3|]. left. lia.
Qed.
Lemma all_fine_ok fuel ops : forall t, all_fine fuel t ops = true -> all_top_ok fuel t ops.
Proof.
  induction ops as [|o ops IH]; intros t H; cbn [all_fine all_top_ok] in *; [exact I|]. apply andb_true_iff in H. destruct H as (H1 & H2). split; [apply fine_ok; exact H1|].
  destruct (tstep fuel t o) as [(t1 & l)|e]; [apply IH; exact H2|exact I].
Qed.
Lemma fine_after waveform ops : waveform_phases (s32 waveform) <> None ->
  match BKTrackInit 1000 waveform with Ok t0 => all_fine 1000 t0 ops | Err _ => false end = true -> reachable 1000 (track_after waveform ops).
Proof.
  intros HW HO. apply reachable_after; [exact HW|]. destruct (BKTrackInit 1000 waveform) as [t0|e]; [|discriminate HO]. apply all_fine_ok. exact HO.
Qed.
Ltac fines := apply fine_after; [vm_compute; discriminate|vm_compute; reflexivity].

(** A track that plays a middle note in a context with two channels. *)
Definition playing : list top := [OAttach 2 44100 0; OAttr BK_MASTER_VOLUME 32767; OAttr BK_NOTE 50331648; OTick].
Lemma playing_reachable waveform : waveform = BK_SQUARE \/ waveform = BK_TRIANGLE -> reachable 1000 (track_after waveform playing).
Proof. intros [-> | ->]; fines. Qed.

(** ** C44: volumes *)

(** After volume, master volume or panning have been set and the unit is updated (by the next
    tick or run), the volumes of the unit are those of the formula [channel] of the current
    levels, and between 0 and the master volume.  No case overflows. *)
Theorem track_volume_partial fuel t attr v : reachable fuel t -> in_s32 v = true ->
  attr = BK_VOLUME \/ attr = BK_MASTER_VOLUME \/ attr = BK_PANNING ->
  exists t1 t2 l, BKTrackSetAttr fuel t attr v = Ok (t1, 0) /\ BKTrackUpdateUnit t1 = Ok t2 /\ measures t2 l /\ volumes t2 l /\
    forall k, 0 <= channel l k <= level l /\ level l <= tr_master t2.
Proof.
  intros R HV HA. pose proof (reachable_ok _ _ R) as H.
  destruct (attr_ok fuel t attr v H HV) as (t1 & r & E & H1).
  { destruct HA as [-> |[-> | ->]]; intros [?|?]; discriminate. } { destruct HA as [-> |[-> | ->]]; intros [(? & _)|(? & _)]; discriminate. }
  { destruct HA as [-> |[-> | ->]]; intros [?|[?|?]]; discriminate. }
  assert (EF : r = 0 /\ has t1 FVolume = true).
  { destruct HA as [-> |[-> | ->]].
    - change (BKTrackSetAttr fuel t BK_VOLUME v) with (let* x := BKTrackSetVolume t v in @Ok (track * Z) (x, 0)) in E. apply bind_inv in E. destruct E as (x & E1 & E).
      unfold BKTrackSetVolume in E1. apply bind_inv in E1. destruct E1 as (s & _ & E1). assert (t1 = x) as -> by congruence.
      match type of E1 with Ok ?y = _ => assert (x = y) as -> by congruence end. split; [congruence|reflexivity].
    - change (BKTrackSetAttr fuel t BK_MASTER_VOLUME v) with (@Ok (track * Z) (put (t_master t (BKClamp v 0 BK_MAX_VOLUME)) FVolume true, 0)) in E.
      match type of E with Ok (?y, _) = _ => assert (t1 = y) as -> by congruence end. split; [congruence|reflexivity].
    - change (BKTrackSetAttr fuel t BK_PANNING v) with (let* x := BKTrackSetPanning t v in @Ok (track * Z) (x, 0)) in E. apply bind_inv in E. destruct E as (x & E1 & E).
      unfold BKTrackSetPanning in E1. apply bind_inv in E1. destruct E1 as (s & _ & E1). assert (t1 = x) as -> by congruence.
      match type of E1 with Ok ?y = _ => assert (x = y) as -> by congruence end. split; [congruence|reflexivity]. }
  destruct EF as (-> & EF). destruct (update_ok fuel t1 H1) as (t2 & E2 & H2 & _). destruct (update_loud fuel t1 t2 H1 EF E2) as (l & M & V & B).
  exists t1, t2, l. split; [exact E|]. split; [exact E2|]. split; [exact M|]. split; [exact V|]. intros k. split; [|lia].
  apply channel_bounds. assert (lv_master l = tr_master t2) as -> by apply M. apply (tk_master _ _ H2).
Qed.

(** Master volume 0 is silent, and so is volume 0 when no slide is on and none left a rounding
    of a unit behind. *)
Theorem track_silent_partial fuel t attr : reachable fuel t ->
  attr = BK_MASTER_VOLUME \/ attr = BK_VOLUME /\ BKTrackGetAttr t BK_EFFECT_VOLUME_SLIDE = Ok (0, Some 0) /\ sl_roundBias (tr_volume t) < 32768 ->
  exists t1 t2, BKTrackSetAttr fuel t attr 0 = Ok (t1, 0) /\ BKTrackUpdateUnit t1 = Ok t2 /\
    forall k, 0 <= k < (if has t2 FPan then 2 else 8) -> BKTrackGetAttr t2 (BK_VOLUME_0 + k) = Ok (0, Some 0).
Proof.
  intros R HA. pose proof (reachable_ok _ _ R) as H. destruct (track_volume_partial fuel t attr 0 R eq_refl) as (t1 & t2 & l & E1 & E2 & M & V & _); [tauto|].
  exists t1, t2. split; [exact E1|]. split; [exact E2|]. intros k HK. rewrite V by (destruct M as (_ & _ & _ & _ & -> & _); exact HK). do 3 f_equal. apply channel_zero.
  destruct (attr_ok fuel t attr 0 H eq_refl) as (t1' & r & E1' & H1).
  { destruct HA as [-> |(-> & _)]; intros [?|?]; discriminate. } { destruct HA as [-> |(-> & _)]; intros [(? & _)|(? & _)]; discriminate. }
  { destruct HA as [-> |(-> & _)]; intros [?|[?|?]]; discriminate. }
  rewrite E1 in E1'. assert (t1' = t1) as -> by congruence. clear E1'.
  destruct (update_ok fuel t1 H1) as (t2' & E2' & _ & MK). rewrite E2 in E2'. assert (t2' = t2) as -> by congruence. clear E2'.
  destruct HA as [-> |(-> & HS & HB)].
  - right. assert (lv_master l = tr_master t2) as -> by apply M. change (BKTrackSetAttr fuel t BK_MASTER_VOLUME 0) with (@Ok (track * Z) (put (t_master t 0) FVolume true, 0)) in E1.
    assert (t1 = put (t_master t 0) FVolume true) as -> by congruence. destruct MK as (? & ? & ? & ? & ->). reflexivity.
  - left. assert (HS' : sl_steps (tr_volume t) = 0) by (change (@Ok (Z * option Z) (0, Some (sl_steps (tr_volume t))) = Ok (0, Some 0)) in HS; congruence).
    pose proof (volume_now fuel t 0 t1 H HS' E1) as G. destruct M as (M1 & _). destruct MK as (? & ? & ? & ? & ->). change (BKSlideStateGetValue (tr_volume t1) = Ok (lv_volume l)) in M1.
    rewrite G in M1. pose proof (si_bias _ _ (proj1 (tk_volume _ _ H))) as BB. rewrite Z.div_small in M1 by lia. cbn in M1. congruence.
Qed.

(** Larger volumes and master volumes are not less loud on any channel. *)
Theorem track_monotone_partial fuel t attr v v' : reachable fuel t -> tame t -> in_s32 v = true -> in_s32 v' = true -> v <= v' ->
  attr = BK_MASTER_VOLUME \/ attr = BK_VOLUME /\ BKTrackGetAttr t BK_EFFECT_VOLUME_SLIDE = Ok (0, Some 0) ->
  exists t1 t2 t1' t2', BKTrackSetAttr fuel t attr v = Ok (t1, 0) /\ BKTrackUpdateUnit t1 = Ok t2 /\
    BKTrackSetAttr fuel t attr v' = Ok (t1', 0) /\ BKTrackUpdateUnit t1' = Ok t2' /\
    forall k, 0 <= k < (if has t FPan then 2 else 8) -> exists a a', BKTrackGetAttr t2 (BK_VOLUME_0 + k) = Ok (0, Some a) /\
      BKTrackGetAttr t2' (BK_VOLUME_0 + k) = Ok (0, Some a') /\ a <= a'.
Proof.
  intros R TA HV HV' LE HA. pose proof (reachable_ok _ _ R) as H.
  assert (G : forall w, in_s32 w = true -> exists t1 t2 l, BKTrackSetAttr fuel t attr w = Ok (t1, 0) /\ BKTrackUpdateUnit t1 = Ok t2 /\ measures t2 l /\ volumes t2 l /\ track_ok fuel t2 /\ marks t1 t2).
  { intros w HW. destruct (track_volume_partial fuel t attr w R HW) as (t1 & t2 & l & E1 & E2 & M & V & _); [tauto|].
    destruct (attr_ok fuel t attr w H HW) as (t1' & r & E1' & H1).
    { destruct HA as [-> |(-> & _)]; intros [?|?]; discriminate. } { destruct HA as [-> |(-> & _)]; intros [(? & _)|(? & _)]; discriminate. }
    { destruct HA as [-> |(-> & _)]; intros [?|[?|?]]; discriminate. }
    rewrite E1 in E1'. assert (t1' = t1) as -> by congruence. destruct (update_ok fuel t1 H1) as (t2' & E2' & H2 & MK). rewrite E2 in E2'. assert (t2' = t2) as -> by congruence.
    exists t1, t2, l. auto 10. }
  destruct (G v HV) as (t1 & t2 & l & E1 & E2 & M & V & H2 & MK). destruct (G v' HV') as (t1' & t2' & l' & E1' & E2' & M' & V' & H2' & MK').
  exists t1, t2, t1', t2'. split; [exact E1|]. split; [exact E2|]. split; [exact E1'|]. split; [exact E2'|].
  assert (K : like t1 t1' /\ tame t1 /\ has t1 FPan = has t FPan /\ tr_master t1 <= tr_master t1' /\ exists x x', BKSlideStateGetValue (tr_volume t1) = Ok x /\ BKSlideStateGetValue (tr_volume t1') = Ok x' /\ x <= x').
  { destruct HA as [-> |(-> & HS)].
    - change (BKTrackSetAttr fuel t BK_MASTER_VOLUME v) with (@Ok (track * Z) (put (t_master t (BKClamp v 0 32767)) FVolume true, 0)) in E1.
      change (BKTrackSetAttr fuel t BK_MASTER_VOLUME v') with (@Ok (track * Z) (put (t_master t (BKClamp v' 0 32767)) FVolume true, 0)) in E1'.
      match type of E1 with Ok (?y, _) = _ => assert (t1 = y) as -> by congruence end. match type of E1' with Ok (?y, _) = _ => assert (t1' = y) as -> by congruence end.
      split; [repeat split|]. split; [exact TA|]. split; [reflexivity|]. split.
      + change (BKClamp v 0 32767 <= BKClamp v' 0 32767). rewrite !clamp_minmax by lia. lia.
      + destruct (get_volume _ (tk_volume _ _ H)) as (x & Ex & _). exists x, x. split; [exact Ex|]. split; [exact Ex|lia].
    - assert (HS' : sl_steps (tr_volume t) = 0) by (change (@Ok (Z * option Z) (0, Some (sl_steps (tr_volume t))) = Ok (0, Some 0)) in HS; congruence).
      pose proof (volume_now fuel t v t1 H HS' E1) as G1. pose proof (volume_now fuel t v' t1' H HS' E1') as G2.
      change (BKTrackSetAttr fuel t BK_VOLUME v) with (let* x := BKTrackSetVolume t v in @Ok (track * Z) (x, 0)) in E1.
      change (BKTrackSetAttr fuel t BK_VOLUME v') with (let* x := BKTrackSetVolume t v' in @Ok (track * Z) (x, 0)) in E1'.
      unfold BKTrackSetVolume in E1, E1'. apply bind_inv in E1. destruct E1 as (x & E1 & EX). apply bind_inv in E1. destruct E1 as (s & _ & E1).
      apply bind_inv in E1'. destruct E1' as (x' & E1' & EX'). apply bind_inv in E1'. destruct E1' as (s' & _ & E1').
      assert (t1 = put (t_volume t s) FVolume true) by congruence. assert (t1' = put (t_volume t s') FVolume true) by congruence. clear E1 EX E1' EX'. subst t1 t1'.
      split; [repeat split|]. split; [exact TA|]. split; [reflexivity|]. split; [reflexivity|]. eexists _, _. split; [exact G1|]. split; [exact G2|]. lia. }
  destruct K as (L & T1 & FP & LM & x & x' & Ex & Ex' & LX). intros k HK. exists (channel l k), (channel l' k).
  assert (LL := like_marks _ _ _ _ L MK MK'). assert (TT := tame_marks _ _ MK T1).
  assert (FP2 : has t2 FPan = has t FPan) by (rewrite (marks_has' _ _ _ MK) by discriminate; exact FP).
  assert (HK1 : 0 <= k < (if lv_stereo l then 2 else 8)) by (destruct M as (_ & _ & _ & _ & -> & _); rewrite FP2; exact HK).
  assert (HK2 : 0 <= k < (if lv_stereo l' then 2 else 8)).
  { destruct M' as (_ & _ & _ & _ & -> & _). destruct LL as (_ & _ & _ & -> & _). rewrite FP2. exact HK. }
  split; [exact (V k HK1)|]. split; [exact (V' k HK2)|].
  apply (like_mono fuel t2 t2' l l' x x' H2 H2' TT LL M M'); [| |exact LX|].
  - destruct MK as (? & ? & ? & ? & ->). exact Ex.
  - destruct MK' as (? & ? & ? & ? & ->). exact Ex'.
  - destruct MK as (? & ? & ? & ? & ->). destruct MK' as (? & ? & ? & ? & ->). exact LM.
Qed.

(** Panning lowers the volume of the opposite channel only. *)
Theorem track_panning l : 0 <= lv_master l <= 32767 ->
  (lv_stereo l = false -> forall k, channel l k = level l) /\
  (0 <= pan l -> channel l 1 = level l /\ channel l 0 <= level l) /\
  (pan l <= 0 -> channel l 0 = level l /\ channel l 1 <= level l) /\
  (lv_stereo l = true -> pan l = 32767 -> channel l 0 = 0) /\ (lv_stereo l = true -> pan l = -32767 -> channel l 1 = 0).
Proof.
  intros H. pose proof (channel_bounds l 0 H) as B0. pose proof (channel_bounds l 1 H) as B1.
  split; [|split; [|split; [|split]]].
  - intros E k. unfold channel. rewrite E. reflexivity.
  - intros P. split; [|lia]. unfold channel. change (1 =? 0) with false. rewrite andb_false_r. destruct (Z.ltb_spec (pan l) 0); [lia|]. rewrite andb_false_r. reflexivity.
  - intros P. split; [|lia]. unfold channel. destruct (Z.gtb_spec (pan l) 0); [lia|]. rewrite andb_false_r. change (0 =? 1) with false. rewrite !andb_false_r. reflexivity.
  - intros E P. unfold channel. rewrite E, P. cbn [andb Z.gtb Z.compare Z.eqb]. unfold part. change (32767 - 32767) with 0. rewrite Z.mul_0_r. reflexivity.
  - intros E P. unfold channel. rewrite E, P. cbn [andb Z.gtb Z.ltb Z.compare Z.eqb]. unfold part. change (32767 + -32767) with 0. rewrite Z.mul_0_r. reflexivity.
Qed.

(** A track whose slow volume slide downwards has been switched off is heard at volume 0. *)
Definition slid : list top := playing ++ [OAttr BK_EFFECT_VOLUME_SLIDE 65536; OAttr BK_VOLUME 32763; OAttr BK_EFFECT_VOLUME_SLIDE 0; OAttr BK_VOLUME 0; OTick].
Theorem track_silent_refuted : exists t, reachable 1000 t /\ BKTrackGetAttr t BK_VOLUME = Ok (0, Some 0) /\ BKTrackGetAttr t BK_EFFECT_VOLUME_SLIDE = Ok (0, Some 0) /\
  BKTrackGetAttr t BK_VOLUME_0 = Ok (0, Some 63).
Proof.
  exists (track_after BK_SQUARE slid). split; [|vm_compute; auto]. fines.
Qed.

Example track_volume_ex : let t := track_after BK_SQUARE (playing ++ [OAttr BK_PANNING (-16384); OAttr BK_VOLUME 20000; OTick]) in
  reachable 1000 t /\ BKTrackGetAttr t BK_VOLUME_0 = Ok (0, Some 19999) /\ BKTrackGetAttr t (BK_VOLUME_0 + 1) = Ok (0, Some 9998).
Proof. split; [fines|vm_compute; auto]. Qed.
Example track_silent_ex : let t := track_after BK_SQUARE playing in
  reachable 1000 t /\ BKTrackGetAttr t BK_EFFECT_VOLUME_SLIDE = Ok (0, Some 0) /\ sl_roundBias (tr_volume t) < 32768 /\ tame t /\
  BKTrackGetAttr t BK_VOLUME_0 = Ok (0, Some 32766).
Proof.
  split; [apply playing_reachable; auto|]. split; [reflexivity|]. split; [vm_compute; reflexivity|]. split; [|vm_compute; reflexivity].
  split; intros C; vm_compute in C; discriminate C.
Qed.
Example track_panning_ex : let l := mk_levels 20000 false (Some (30000, 1000)) (Some 500) 2000 32767 true in
  pan l = 3000 /\ channel l 0 = 16377 /\ channel l 1 = 18029 /\ level l = 18029.
Proof. vm_compute. auto. Qed.

(** ** C45: effects *)

(** Slides and portamento read back clamped, with the integers they do not use 0. *)
Theorem effect_readback_partial fuel t effect v0 v1 v2 : reachable fuel t ->
  effect = BK_EFFECT_VOLUME_SLIDE \/ effect = BK_EFFECT_PANNING_SLIDE \/ effect = BK_EFFECT_PORTAMENTO ->
  exists t', BKTrackSetPtr fuel t effect (TInts [v0; v1; v2]) 12 = Ok (t', 0) /\ BKTrackGetPtr t' effect 12 = (0, [Z.max 0 (Z.min 65536 v0); 0; 0]).
Proof.
  intros R HE. destruct (slide_effects fuel t effect v0 v1 v2 (reachable_ok _ _ R) HE) as (t' & E & _ & G). exists t'.
  rewrite steps_max in G. rewrite <- clamp_minmax by lia. destruct HE as [-> |[-> | ->]]; (split; [exact E|exact G]).
Qed.
(** Tremolo and vibrato read back scaled: steps times 16384, the depth of a tremolo times 32768. *)
Theorem effect_scaled_partial fuel t effect v0 v1 v2 : reachable fuel t ->
  effect = BK_EFFECT_TREMOLO \/ effect = BK_EFFECT_VIBRATO /\ Z.abs v1 <= MAX_VIBRATO ->
  exists t', BKTrackSetPtr fuel t effect (TInts [v0; v1; v2]) 12 = Ok (t', 0) /\
    BKTrackGetPtr t' effect 12 =
      (0, [Z.max 0 (Z.min 65536 v0) * 16384; if effect =? BK_EFFECT_TREMOLO then Z.max 0 (Z.min 32767 v1) * 32768 else v1; Z.max 0 (Z.min 65536 v2)]).
Proof.
  intros R HE. destruct (wave_effects fuel t effect v0 v1 v2 (reachable_ok _ _ R) HE) as (t' & E & _ & G). exists t'.
  rewrite <- !clamp_minmax by lia. destruct HE as [-> |(-> & _)]; (split; [exact E|exact G]).
Qed.
Theorem effect_readback_refuted : exists t t1 t2, reachable 1000 t /\
  BKTrackSetPtr 1000 t BK_EFFECT_TREMOLO (TInts [8; 100; 0]) 12 = Ok (t1, 0) /\ BKTrackGetPtr t1 BK_EFFECT_TREMOLO 12 = (0, [131072; 3276800; 0]) /\
  BKTrackSetPtr 1000 t BK_EFFECT_VIBRATO (TInts [8; 100; 0]) 12 = Ok (t2, 0) /\ BKTrackGetPtr t2 BK_EFFECT_VIBRATO 12 = (0, [131072; 100; 0]).
Proof.
  exists (track_after BK_SQUARE playing), (track_after BK_SQUARE (playing ++ [OPtr BK_EFFECT_TREMOLO (TInts [8; 100; 0]) 12])),
    (track_after BK_SQUARE (playing ++ [OPtr BK_EFFECT_VIBRATO (TInts [8; 100; 0]) 12])). split; [apply playing_reachable; auto|]. vm_compute. auto.
Qed.
Example effect_readback_ex : exists t, BKTrackSetPtr 1000 (track_after BK_SQUARE playing) BK_EFFECT_PORTAMENTO (TInts [70000; 5; 6]) 12 = Ok (t, 0) /\
  BKTrackGetPtr t BK_EFFECT_PORTAMENTO 12 = (0, [65536; 0; 0]).
Proof. apply (effect_readback_partial 1000); [apply playing_reachable; auto|auto]. Qed.
Example effect_scaled_ex : exists t, BKTrackSetPtr 1000 (track_after BK_SQUARE playing) BK_EFFECT_VIBRATO (TInts [10; -524288; 3]) 12 = Ok (t, 0) /\
  BKTrackGetPtr t BK_EFFECT_VIBRATO 12 = (0, [163840; -524288; 3]).
Proof. apply (effect_scaled_partial 1000); [apply playing_reachable; auto|]. right. split; [reflexivity|]. vm_compute. discriminate. Qed.

(** ** C46: notes *)

(** For every state: what a note reads as if the call is defined ... *)
Theorem note_readback fuel t v t' r : BKTrackSetAttr fuel t BK_NOTE v = Ok (t', r) ->
  r = 0 /\ BKTrackGetAttr t' BK_NOTE =
    if 0 <=? v then Ok (0, Some (Z.min v MAX_NOTE)) else if (v =? -1) || (v =? -2) then Ok (0, Some (-1)) else BKTrackGetAttr t BK_NOTE.
Proof.
  intros E. change (BKTrackSetAttr fuel t BK_NOTE v) with (let* x := BKTrackSetNote fuel t v in @Ok (track * Z) (x, 0)) in E. apply bind_inv in E. destruct E as (x & E & EX).
  assert (x = t') as -> by congruence. split; [congruence|]. apply note_reads in E.
  change (BKTrackGetAttr t' BK_NOTE) with (@Ok (Z * option Z) (0, Some (tr_curNote t'))). rewrite E.
  destruct (0 <=? v); [reflexivity|]. destruct (_ || _); reflexivity.
Qed.
(** ... which it is in all states of a history. *)
Theorem note_defined fuel t v : reachable fuel t -> in_s32 v = true -> (v = BK_NOTE_RELEASE -> release_ok (tr_unit t)) ->
  exists t', BKTrackSetAttr fuel t BK_NOTE v = Ok (t', 0) /\ track_ok fuel t'.
Proof.
  intros R HV HR. destruct (attr_ok fuel t BK_NOTE v (reachable_ok _ _ R) HV) as (t' & r & E & H').
  { intros [?|?]; discriminate. } { intros [(? & _)|(_ & E)]; [discriminate|exact (HR E)]. } { intros [?|[?|?]]; discriminate. }
  exists t'. destruct (note_readback _ _ _ _ _ E) as (-> & _). auto.
Qed.
Example note_ex : exists t', BKTrackSetAttr 1000 (track_after BK_SQUARE playing) BK_NOTE 2147483647 = Ok (t', 0) /\ BKTrackGetAttr t' BK_NOTE = Ok (0, Some MAX_NOTE).
Proof.
  destruct (note_defined 1000 (track_after BK_SQUARE playing) 2147483647) as (t' & E & _); [apply playing_reachable; auto|reflexivity|intros C; discriminate C|].
  exists t'. split; [exact E|]. destruct (note_readback _ _ _ _ _ E) as (_ & ->). reflexivity.
Qed.

(** ** C47: arpeggios *)

(** No instrument, no effects, no rounding left by a portamento; attached to a context. *)
Definition plainly (t : track) : Prop :=
  BKTrackGetPtr t BK_INSTRUMENT 8 = (0, [0]) /\ has t FInstr = false /\ any_effect t = false /\ un_ctx (tr_unit t) <> None /\
  sl_steps (tr_note t) = 0 /\ sl_roundBias (tr_note t) = 0.

(** An arpeggio on a track that plays no note: from the note on, tick [j] (from 1) plays note
    [(j - 1) / d] of the arpeggio, counted cyclically, for the divider [d]. *)
Theorem arpeggio_cycles_partial fuel t notes d v j : reachable fuel t -> plainly t -> BKTrackGetAttr t BK_NOTE = Ok (0, Some (-1)) ->
  1 <= Z.of_nat (length notes) <= 8 -> Forall (fun v => Z.abs v <= MAX_NOTE) notes -> 1 <= d < 2147483648 -> 0 <= v -> (1 <= j)%nat ->
  exists t1 t2 t3 t4, BKTrackSetPtr fuel t BK_ARPEGGIO (TInts (Z.of_nat (length notes) :: notes)) (4 * (Z.of_nat (length notes) + 1)) = Ok (t1, 0) /\
    BKTrackSetAttr fuel t1 BK_ARPEGGIO_DIVIDER d = Ok (t2, 0) /\ BKTrackSetAttr fuel t2 BK_NOTE v = Ok (t3, 0) /\ ticks fuel j t3 = Ok t4 /\
    unit_plays t4 (Z.min v MAX_NOTE + nth (Z.to_nat ((Z.of_nat j - 1) / d mod Z.of_nat (length notes))) notes 0 + tr_pitch t).
Proof.
  intros R (_ & HI & HE & HC & S0 & B0) HN L F HD HV HJ. pose proof (reachable_ok _ _ R) as H. set (n := Z.of_nat (length notes)) in *.
  destruct (set_arpeggio fuel t notes H L F) as (t1 & E1 & H1 & ET1). fold n in E1, ET1.
  assert (D2 : BKTrackSetAttr fuel t1 BK_ARPEGGIO_DIVIDER d = Ok (t_arpDiv t1 (mk_dstate d 0), 0)) by reflexivity.
  set (t2 := t_arpDiv t1 (mk_dstate d 0)) in *.
  assert (H2 : track_ok fuel t2) by (apply ok_arpDiv; [exact H1|split; cbn; lia]).
  assert (F2 : forall k, k <> FArp -> k <> FNote -> has t2 k = has t k) by (intros k K1 K2; unfold t2; rewrite ET1; destruct k; try reflexivity; congruence).
  assert (HN' : tr_curNote t = -1) by (change (@Ok (Z * option Z) (0, Some (tr_curNote t)) = Ok (0, Some (-1))) in HN; congruence).
  assert (G2 : tr_curNote t2 = -1 /\ tr_note t2 = tr_note t /\ tr_unit t2 = tr_unit t /\ has t2 FArp = true /\ tr_pitch t2 = tr_pitch t /\ ar_count (tr_arpeggio t2) = n /\ ar_notes (tr_arpeggio t2) = notes ++ skipn (length notes) (ar_notes (tr_arpeggio t)))
    by (unfold t2; rewrite ET1; auto 10).
  destruct G2 as (G1 & G2 & G3 & G4 & G5 & G6 & G7).
  destruct (note_played fuel t2 v j H2) as (t3 & t4 & n0 & E3 & E4 & H4 & TB & _ & EA & ED & PL & EN & FA & _); try assumption.
  { rewrite F2 by discriminate. exact HI. } { unfold any_effect. rewrite !F2 by discriminate. exact HE. } { rewrite G3. exact HC. }
  exists t1, t2, t3, t4. split; [exact E1|]. split; [exact D2|]. split; [exact E3|]. split; [exact E4|].
  rewrite G4, G5, (EN ltac:(rewrite G2; exact S0) ltac:(rewrite G2; exact B0)) in PL.
  assert (FA3 : has t3 FArp = true) by (rewrite <- (tb_flag _ _ _ TB) by discriminate; rewrite FA; exact G4).
  assert (A4 := tb_arp _ _ _ TB). rewrite FA3, ED in A4. change (tr_arpDiv t2) with (mk_dstate d 0) in A4.
  rewrite G1 in EA. change (-1 =? -1) with true in EA. cbv iota in EA. rewrite G6, G7 in EA. rewrite EA in A4.
  set (x := fired (mk_dstate d 0) j) in *.
  assert (EX : x = (Z.of_nat j - 1) / d + 1).
  { unfold x, fired. cbn [ds_divider ds_counter]. replace (Z.of_nat j + d - 1 - 0) with (Z.of_nat j - 1 + 1 * d) by lia. apply Z.div_add. lia. }
  assert (X1 : 0 <= (Z.of_nat j - 1) / d) by (apply Z.div_pos; lia).
  destruct (arp_steps_at (Z.to_nat x) (mk_arp 0 (ar_delta (tr_arpeggio t2)) n (notes ++ skipn (length notes) (ar_notes (tr_arpeggio t)))) ltac:(cbn; lia)) as (_ & AD).
  cbn [ar_offset ar_count ar_notes] in AD. rewrite Z2Nat.id in AD by lia. specialize (AD ltac:(lia)). rewrite <- A4 in AD. rewrite AD in PL.
  replace (0 + x - 1) with ((Z.of_nat j - 1) / d) in PL by lia.
  rewrite app_nth1 in PL; [exact PL|]. pose proof (Z.mod_pos_bound ((Z.of_nat j - 1) / d) n ltac:(lia)). unfold n in *. lia.
Qed.

(** In all histories the index stays inside the arpeggio. *)
Theorem arpeggio_index fuel t : reachable fuel t ->
  let a := tr_arpeggio t in 0 <= ar_offset a < Z.max 1 (ar_count a) /\ ar_count a <= 8 /\ length (ar_notes a) = 8%nat.
Proof. intros R. destruct (tk_arpeggio _ _ (reachable_ok _ _ R)) as (A1 & A2 & A3 & _). cbv zeta. split; [exact A3|]. split; [apply A2|exact A1]. Qed.

(** A negative number of notes copies a block of nearly 2^64 bytes. *)
Theorem arpeggio_negative_refuted : exists t, reachable 1000 t /\ BKTrackSetPtr 1000 t BK_ARPEGGIO (TInts [-1; 0; 4194304]) 12 = Err EBounds.
Proof. exists (track_after BK_SQUARE playing). split; [apply playing_reachable; auto|]. vm_compute. reflexivity. Qed.

(** A new note goes on with the last note of the arpeggio until the divider has run down:
    after a mute and a new note the first tick plays 7 half tones higher, and not the first
    note of the arpeggio. *)
Definition major : list Z := [0; 4194304; 7340032].
Definition restart : list top :=
  playing ++ [OPtr BK_ARPEGGIO (TInts (3 :: major)) 16; OTick; OTick; OTick; OTick; OTick; OTick; OTick; OTick; OTick;
              OAttr BK_NOTE (-2); OAttr BK_NOTE 50331648].
Theorem arpeggio_start_refuted : exists t t', reachable 1000 t /\ BKTrackGetAttr t BK_NOTE = Ok (0, Some 50331648) /\ ticks 1000 1 t = Ok t' /\
  unit_plays t' (50331648 + 7340032) /\ ~ unit_plays t' 50331648.
Proof.
  exists (track_after BK_SQUARE restart), (track_after BK_SQUARE (restart ++ [OTick])). split; [fines|].
  split; [vm_compute; reflexivity|]. split; [vm_compute; reflexivity|]. split.
  - unfold unit_plays. replace (_ =? BK_SAMPLE) with false by (vm_compute; reflexivity). eexists. split; [vm_compute; reflexivity|]. intros _. vm_compute. reflexivity.
  - unfold unit_plays. replace (_ =? BK_SAMPLE) with false by (vm_compute; reflexivity). intros (p & E & G).
    assert (EP : BKTonePeriodLookup 50331648 (tr_rate (track_after BK_SQUARE (restart ++ [OTick]))) = Ok 88200000) by (vm_compute; reflexivity).
    rewrite EP in E. assert (p = 88200000) as -> by congruence. specialize (G ltac:(vm_compute; discriminate)). vm_compute in G. discriminate G.
Qed.

Definition quiet : list top := [OAttach 2 44100 0; OAttr BK_MASTER_VOLUME 32767].
Lemma quiet_reachable : reachable 1000 (track_after BK_SQUARE quiet).
Proof. fines. Qed.
Lemma quiet_plainly : plainly (track_after BK_SQUARE quiet).
Proof. unfold plainly. split; [vm_compute; reflexivity|]. split; [vm_compute; reflexivity|]. split; [vm_compute; reflexivity|]. split; [vm_compute; discriminate|]. split; vm_compute; reflexivity. Qed.
Example arpeggio_ex : exists t4, calls 1000 BK_SQUARE (quiet ++ [OPtr BK_ARPEGGIO (TInts (3 :: major)) 16; OAttr BK_ARPEGGIO_DIVIDER 2; OAttr BK_NOTE 50331648; OTick; OTick; OTick]) = Ok t4 /\
  unit_plays t4 (50331648 + 4194304).
Proof.
  destruct (arpeggio_cycles_partial 1000 (track_after BK_SQUARE quiet) major 2 50331648 3 quiet_reachable quiet_plainly) as (t1 & t2 & t3 & t4 & E1 & E2 & E3 & E4 & PL).
  { vm_compute. reflexivity. } { vm_compute. split; discriminate. } { repeat constructor; vm_compute; discriminate. } { lia. } { lia. } { lia. }
  exists t4. split; [|exact PL].
  vm_compute in E1. injection E1 as <-. vm_compute in E2. injection E2 as <-. vm_compute in E3. injection E3 as <-. vm_compute in E4. injection E4 as <-. vm_compute. reflexivity.
Qed.

(** ** C48: dividers *)

(** The divider of the arpeggio, of effects or of the instrument. *)
Definition divider (t : track) (attr : Z) : dstate :=
  if attr =? BK_ARPEGGIO_DIVIDER then tr_arpDiv t else if attr =? BK_EFFECT_DIVIDER then tr_effDiv t else tr_instrDiv t.
Definition in_use (t : track) (attr : Z) : bool :=
  if attr =? BK_ARPEGGIO_DIVIDER then has t FArp else if attr =? BK_EFFECT_DIVIDER then any_effect t else has t FInstr.
Definition is_divider (attr : Z) : Prop := attr = BK_ARPEGGIO_DIVIDER \/ attr = BK_EFFECT_DIVIDER \/ attr = BK_INSTRUMENT_DIVIDER.

(** A divider [n] that is in use: the tick behind [j] other ticks is one of every [n]-th. *)
Theorem dividers_partial fuel t attr n j : reachable fuel t -> is_divider attr -> in_use t attr = true -> 1 <= n < 2147483648 ->
  exists t1 t2 d, BKTrackSetAttr fuel t attr n = Ok (t1, 0) /\ ticks fuel j t1 = Ok t2 /\
    BKDividerStateTick (divider t2 attr) = Ok (d, Z.of_nat j mod n =? 0).
Proof.
  intros R HA HU HN. pose proof (reachable_ok _ _ R) as H.
  destruct (attr_ok fuel t attr n H) as (t1 & r & E1 & H1).
  { unfold in_s32. lia. } { destruct HA as [-> |[-> | ->]]; intros [?|?]; discriminate. } { destruct HA as [-> |[-> | ->]]; intros [(? & _)|(? & _)]; discriminate. } { intros _. lia. }
  assert (K : r = 0 /\ divider t1 attr = mk_dstate n 0 /\ in_use t1 attr = true).
  { destruct HA as [-> |[-> | ->]].
    - change (BKTrackSetAttr fuel t BK_ARPEGGIO_DIVIDER n) with (@Ok (track * Z) (t_arpDiv t (mk_dstate n 0), 0)) in E1.
      assert (t1 = t_arpDiv t (mk_dstate n 0)) as -> by congruence. split; [congruence|]. split; [reflexivity|exact HU].
    - change (BKTrackSetAttr fuel t BK_EFFECT_DIVIDER n) with (@Ok (track * Z) (t_effDiv t (mk_dstate n 0), 0)) in E1.
      assert (t1 = t_effDiv t (mk_dstate n 0)) as -> by congruence. split; [congruence|]. split; [reflexivity|exact HU].
    - change (BKTrackSetAttr fuel t BK_INSTRUMENT_DIVIDER n) with (@Ok (track * Z) (t_instrDiv t (mk_dstate n 0), 0)) in E1.
      assert (t1 = t_instrDiv t (mk_dstate n 0)) as -> by congruence. split; [congruence|]. split; [reflexivity|exact HU]. }
  destruct K as (-> & K1 & K2). destruct (ticks_ticked fuel j t1 H1) as (t2 & E2 & H2 & TB).
  assert (D0 : div_ok (mk_dstate n 0)) by (split; cbn; lia).
  assert (ED : divider t2 attr = div_steps j (mk_dstate n 0)).
  { destruct HA as [-> |[-> | ->]].
    - change (tr_arpDiv t2 = div_steps j (mk_dstate n 0)). rewrite (tb_arpDiv _ _ _ TB). change (has t1 FArp = true) in K2. rewrite K2. change (tr_arpDiv t1 = mk_dstate n 0) in K1. rewrite K1. reflexivity.
    - change (tr_effDiv t2 = div_steps j (mk_dstate n 0)). rewrite (tb_effDiv _ _ _ TB). change (any_effect t1 = true) in K2. rewrite K2. change (tr_effDiv t1 = mk_dstate n 0) in K1. rewrite K1. reflexivity.
    - change (tr_instrDiv t2 = div_steps j (mk_dstate n 0)). rewrite (tb_instrDiv _ _ _ TB). change (has t1 FInstr = true) in K2. rewrite K2. change (tr_instrDiv t1 = mk_dstate n 0) in K1. rewrite K1. reflexivity. }
  destruct (div_steps_ok j _ D0) as (DO & _). destruct (divtick_ok _ DO) as (d & b & EB & _ & Eb & _). exists t1, t2, d. split; [exact E1|]. split; [exact E2|].
  rewrite ED, EB. f_equal. f_equal. rewrite Eb. change (fires (div_steps j (mk_dstate n 0)) = (Z.of_nat j mod n =? 0)). rewrite (div_steps_fires j _ D0). cbn [ds_counter ds_divider]. rewrite Z.sub_0_r. reflexivity.
Qed.

(** 0 is accepted as divider, and then it fires once and never again. *)
Theorem dividers_refuted : exists t t1, reachable 1000 t /\ has t FArp = true /\ BKTrackSetAttr 1000 t BK_ARPEGGIO_DIVIDER 0 = Ok (t1, 0) /\
  (exists d, BKDividerStateTick (tr_arpDiv t1) = Ok (d, true)) /\
  forall j d, (1 <= j)%nat -> Nat.iter j (fun r => let* (d, _) := r in BKDividerStateTick d) (Ok (tr_arpDiv t1, false)) = Ok d -> Z.of_nat j < 2147483648 ->
    exists d', BKDividerStateTick (fst d) = Ok (d', false).
Proof.
  exists (track_after BK_SQUARE (playing ++ [OPtr BK_ARPEGGIO (TInts (3 :: major)) 16])), (track_after BK_SQUARE (playing ++ [OPtr BK_ARPEGGIO (TInts (3 :: major)) 16; OAttr BK_ARPEGGIO_DIVIDER 0])).
  split; [fines|].
  split; [vm_compute; reflexivity|]. split; [vm_compute; reflexivity|]. split; [eexists; vm_compute; reflexivity|].
  replace (tr_arpDiv _) with (mk_dstate 0 0) by (vm_compute; reflexivity).
  assert (K : forall j d, Nat.iter j (fun r => let* (d, _) := r in BKDividerStateTick d) (Ok (mk_dstate 0 0, false)) = Ok d -> fst d = mk_dstate 0 (- Z.of_nat j)).
  { induction j as [|j IH]; intros d E; [cbn in E; assert (d = (mk_dstate 0 0, false)) as -> by congruence; reflexivity|].
    cbn [Nat.iter] in E. apply bind_inv in E. destruct E as ((d0 & b0) & E0 & E). apply IH in E0. cbn [fst] in E0. subst d0.
    unfold BKDividerStateTick in E. cbn [ds_counter ds_divider] in E. destruct (Z.eqb_spec (- Z.of_nat j) 0) as [Z0|Z0].
    - apply bind_inv in E. destruct E as (c & E1 & E). apply chk32_inv in E1. destruct E1 as (-> & _). assert (d = (mk_dstate 0 (0 - 1), true)) as -> by congruence. cbn [fst]. f_equal. lia.
    - apply bind_inv in E. destruct E as (c & E1 & E). apply chk32_inv in E1. destruct E1 as (-> & _). assert (d = (mk_dstate 0 (- Z.of_nat j - 1), false)) as -> by congruence. cbn [fst]. f_equal. lia. }
  intros j d J E B. rewrite (K j d E). unfold BKDividerStateTick. cbn [ds_counter ds_divider]. destruct (Z.eqb_spec (- Z.of_nat j) 0); [lia|].
  rewrite chk32_ok by lia. cbn [bind]. eauto.
Qed.
Example dividers_ex : let t := track_after BK_SQUARE (playing ++ [OAttr BK_EFFECT_VOLUME_SLIDE 10]) in reachable 1000 t /\ in_use t BK_EFFECT_DIVIDER = true.
Proof. split; [fines|vm_compute; reflexivity]. Qed.

(** ** C49: pitch *)

(** The pitch is part of every note played from then on. *)
Theorem pitch_next_note_partial fuel t p v j : reachable fuel t -> plainly t -> has t FArp = false -> in_s32 p = true -> 0 <= v -> (1 <= j)%nat ->
  exists t1 t2 t3, BKTrackSetAttr fuel t BK_PITCH p = Ok (t1, 0) /\ BKTrackSetAttr fuel t1 BK_NOTE v = Ok (t2, 0) /\ ticks fuel j t2 = Ok t3 /\
    unit_plays t3 (Z.min v MAX_NOTE + Z.max (- MAX_PITCH) (Z.min MAX_PITCH p)).
Proof.
  intros R (_ & HI & HE & HC & S0 & B0) HA HP HV HJ. pose proof (reachable_ok _ _ R) as H.
  assert (E1 : BKTrackSetAttr fuel t BK_PITCH p = Ok (t_pitch t (clamp_pitch p), 0)) by reflexivity.
  set (t1 := t_pitch t (clamp_pitch p)) in *. assert (H1 : track_ok fuel t1) by (apply ok_pitch; [exact H|apply pitch_clamp]).
  destruct (note_played fuel t1 v j H1) as (t2 & t3 & n0 & E2 & E3 & _ & _ & _ & _ & _ & PL & EN & _); try assumption.
  exists t1, t2, t3. split; [exact E1|]. split; [exact E2|]. split; [exact E3|].
  change (has t1 FArp) with (has t FArp) in PL. change (tr_pitch t1) with (clamp_pitch p) in PL. rewrite HA, (EN S0 B0), Z.add_0_r in PL.
  change (clamp_pitch p) with (BKClamp p (-50331648) 50331648) in PL. rewrite clamp_minmax in PL by lia. exact PL.
Qed.

(** But the note that is playing stays as it is for all ticks to come. *)
Theorem pitch_refuted : exists t t1, reachable 1000 t /\ BKTrackGetAttr t BK_NOTE = Ok (0, Some 50331648) /\ BKTrackSetAttr 1000 t BK_PITCH 1048576 = Ok (t1, 0) /\
  exists t2, ticks 1000 100 t1 = Ok t2 /\ unit_plays t2 50331648 /\ ~ unit_plays t2 (50331648 + 1048576).
Proof.
  exists (track_after BK_SQUARE playing), (track_after BK_SQUARE (playing ++ [OAttr BK_PITCH 1048576])). split; [apply playing_reachable; auto|].
  split; [vm_compute; reflexivity|]. split; [vm_compute; reflexivity|]. exists (track_after BK_SQUARE (playing ++ OAttr BK_PITCH 1048576 :: repeat OTick 100)).
  split; [vm_compute; reflexivity|]. split.
  - unfold unit_plays. replace (_ =? BK_SAMPLE) with false by (vm_compute; reflexivity). eexists. split; [vm_compute; reflexivity|]. intros _. vm_compute. reflexivity.
  - unfold unit_plays. replace (_ =? BK_SAMPLE) with false by (vm_compute; reflexivity). intros (p & E & G).
    specialize (G ltac:(vm_compute; discriminate)). vm_compute in E. injection E as <-. vm_compute in G. discriminate G.
Qed.
Example pitch_ex : exists t3, calls 1000 BK_SQUARE (quiet ++ [OAttr BK_PITCH 1048576; OAttr BK_NOTE 50331648; OTick]) = Ok t3 /\ unit_plays t3 (50331648 + 1048576).
Proof.
  destruct (pitch_next_note_partial 1000 (track_after BK_SQUARE quiet) 1048576 50331648 1 quiet_reachable quiet_plainly) as (t1 & t2 & t3 & E1 & E2 & E3 & PL).
  { vm_compute. reflexivity. } { reflexivity. } { lia. } { lia. }
  exists t3. split; [|exact PL]. vm_compute in E1. injection E1 as <-. vm_compute in E2. injection E2 as <-. vm_compute in E3. injection E3 as <-. vm_compute. reflexivity.
Qed.

(** ** C65: sample rates *)

(** Notes set after attaching are played at the sample rate of the context. *)
Theorem attach_rate_partial fuel t n rate time v j t1 : reachable fuel t -> has t FInstr = false -> any_effect t = false -> has t FArp = false ->
  sl_steps (tr_note t) = 0 -> sl_roundBias (tr_note t) = 0 -> 1 <= n <= 8 -> in_u32 time = true -> sm_numChannels (un_sample (tr_unit t)) <= 1 ->
  BKTrackAttach t n rate time = Ok (t1, 0) -> 0 <= v -> (1 <= j)%nat -> tr_waveform t <> BK_SAMPLE ->
  exists t2 t3 p, BKTrackSetAttr fuel t1 BK_NOTE v = Ok (t2, 0) /\ ticks fuel j t2 = Ok t3 /\
    BKTonePeriodLookup (Z.min v MAX_NOTE + tr_pitch t) rate = Ok p /\
    (2 <= ph_count (un_phase (tr_unit t3)) -> BKTrackGetAttr t3 BK_PERIOD = Ok (0, Some (p / Z.min 64 (ph_count (un_phase (tr_unit t3)))))).
Proof.
  intros R HI HE HA S0 B0 Hn HT HS EA HV HJ HW. pose proof (reachable_ok _ _ R) as H.
  destruct (attach_state fuel t n rate time t1 H Hn) as (H1 & C1 & R1 & F1 & _ & N1 & P1 & W1 & _).
  { unfold in_u32 in HT. lia. } { left. exact HS. } { exact EA. }
  destruct (note_played fuel t1 v j H1) as (t2 & t3 & n0 & E2 & E3 & _ & _ & _ & _ & _ & PL & EN & _ & R3 & W3 & _); try assumption.
  { rewrite F1 by discriminate. exact HI. } { unfold any_effect. rewrite !F1 by discriminate. exact HE. }
  rewrite (F1 FArp) in PL by discriminate. rewrite HA, P1, (EN ltac:(rewrite N1; exact S0) ltac:(rewrite N1; exact B0)), Z.add_0_r in PL. unfold unit_plays in PL. rewrite W3, W1 in PL.
  destruct (Z.eqb_spec (tr_waveform t) BK_SAMPLE) as [C|_]; [contradiction|]. destruct PL as (p & EP & G). rewrite R3, R1 in EP. exists t2, t3, p. auto.
Qed.
(** A note set before keeps the period it has for the old context for all ticks to come. *)
Definition moved : list top := [OAttach 2 44100 0; OAttr BK_NOTE 50331648; OTick; ODetach].
Theorem attach_rate_refuted : exists t t1 t2, reachable 1000 t /\ BKTrackGetAttr t BK_NOTE = Ok (0, Some 50331648) /\
  BKTrackAttach t 2 22050 0 = Ok (t1, 0) /\ ticks 1000 100 t1 = Ok t2 /\ ~ unit_plays t2 50331648.
Proof.
  exists (track_after BK_SQUARE moved), (track_after BK_SQUARE (moved ++ [OAttach 2 22050 0])), (track_after BK_SQUARE (moved ++ OAttach 2 22050 0 :: repeat OTick 100)).
  split; [fines|]. split; [vm_compute; reflexivity|]. split; [vm_compute; reflexivity|]. split; [vm_compute; reflexivity|].
  unfold unit_plays. replace (_ =? BK_SAMPLE) with false by (vm_compute; reflexivity). intros (p & E & G).
  specialize (G ltac:(vm_compute; discriminate)). vm_compute in E. injection E as <-. vm_compute in G. discriminate G.
Qed.
Example attach_rate_ex : let t := track_after BK_SQUARE [OAttach 2 44100 0; OAttr BK_NOTE 50331648; OTick; OAttr BK_NOTE (-2); ODetach] in
  exists t1, BKTrackAttach t 2 22050 0 = Ok (t1, 0) /\
  exists t2 t3 p, BKTrackSetAttr 1000 t1 BK_NOTE 41943040 = Ok (t2, 0) /\ ticks 1000 2 t2 = Ok t3 /\ BKTonePeriodLookup 41943040 22050 = Ok p /\
    BKTrackGetAttr t3 BK_PERIOD = Ok (0, Some (p / 16)).
Proof.
  intros t. eexists. split; [vm_compute; reflexivity|].
  edestruct (attach_rate_partial 1000 t 2 22050 0 41943040 2) as (t2 & t3 & p & E2 & E3 & EP & G).
  { unfold t. fines. } 1-5: vm_compute; reflexivity. { lia. } { reflexivity. } { vm_compute. discriminate. } { vm_compute. reflexivity. } { lia. } { lia. } { vm_compute. discriminate. }
  exists t2, t3, p. split; [exact E2|]. split; [exact E3|]. split; [exact EP|].
  vm_compute in E2. injection E2 as <-. vm_compute in E3. injection E3 as <-. vm_compute in EP. injection EP as <-. vm_compute. reflexivity.
Qed.

(** ** C74: nothing undefined *)

(** No sequence of calls and work of the context within the limits of [top_ok] overflows,
    reads outside of memory, divides by zero or dereferences a null pointer. *)
Theorem track_safe_partial fuel waveform ops : waveform_phases (s32 waveform) <> None ->
  exists t0, BKTrackInit fuel waveform = Ok t0 /\ (all_top_ok fuel t0 ops -> exists t ls, truns fuel t0 ops = Ok (t, ls)).
Proof.
  intros HW. destruct (init_ok fuel waveform HW) as (t0 & E0 & H0). exists t0. split; [exact E0|]. intros HO.
  destruct (truns_ok fuel ops t0 H0 HO) as (t & ls & E & _). eauto.
Qed.

(** The limits are needed, as nothing checks them: *)
Theorem track_safe_refuted : exists t, reachable 1000 t /\
  (exists t', truns 1000 t [OAttr BK_ARPEGGIO_DIVIDER (-2147483648); OPtr BK_ARPEGGIO (TInts (3 :: major)) 16] = Ok (t', [[]; []]) /\
     BKTrackTick 1000 t' = Err EOverflow) /\
  (exists t', truns 1000 t [OPtr BK_ARPEGGIO (TInts [2; 2147483647; 0]) 12] = Ok (t', [[]]) /\ BKTrackTick 1000 t' = Err EOverflow) /\
  (exists t', truns 1000 t [OPtr BK_EFFECT_VIBRATO (TInts [8; 2147483647; 0]) 12] = Ok (t', [[]]) /\
     BKTrackSetPtr 1000 t' BK_EFFECT_VIBRATO (TInts [8; -2147483647; 8]) 12 = Err EOverflow) /\
  BKTrackSetAttr 1000 t BK_PERIOD (-2147483648) = Err EOverflow /\
  BKTrackSetPtr 1000 t BK_ARPEGGIO (TInts [-1; 0; 0]) 12 = Err EBounds.
Proof.
  exists (track_after BK_SQUARE playing). split; [apply playing_reachable; auto|].
  split; [eexists; split; [vm_compute; reflexivity|vm_compute; reflexivity]|]. split; [eexists; split; [vm_compute; reflexivity|vm_compute; reflexivity]|]. split; [eexists; split; [vm_compute; reflexivity|vm_compute; reflexivity]|].
  split; vm_compute; reflexivity.
Qed.
Example track_safe_ex : match BKTrackInit 1000 BK_TRIANGLE with Ok t0 => all_top_ok 1000 t0 (playing ++ [OPtr BK_EFFECT_TREMOLO (TInts [8; 100; 3]) 12; OAttr BK_VOLUME 3; OTick; OAttr BK_NOTE (-1); OTick; OClear; OEnd 5; ODetach; OReset]) | Err _ => False end.
Proof. destruct (BKTrackInit 1000 BK_TRIANGLE) as [t0|e] eqn:E; [|vm_compute in E; discriminate E]. apply all_fine_ok. vm_compute in E. injection E as <-. vm_compute. reflexivity. Qed.

(** ** C75: attributes *)

(** An attribute of the track reads back as set, clamped to its range, and the others stay. *)
Theorem track_attr_partial fuel t attr v w : reachable fuel t -> own_value attr v w ->
  exists t', BKTrackSetAttr fuel t attr v = Ok (t', 0) /\ BKTrackGetAttr t' attr = Ok (0, Some w) /\
    (forall b, In b own_attrs -> b <> attr -> BKTrackGetAttr t' b = BKTrackGetAttr t b).
Proof. intros R. apply own_attr, reachable_ok, R. Qed.
(** The pitch can be set but not read. *)
Theorem track_pitch_refuted : forall fuel t v, exists t', BKTrackSetAttr fuel t BK_PITCH v = Ok (t', 0) /\ BKTrackGetAttr t' BK_PITCH = Ok (BK_INVALID_ATTRIBUTE, None).
Proof. intros fuel t v. eexists. split; reflexivity. Qed.
Example track_attr_ex : reachable 1000 (track_after BK_SQUARE playing) /\ own_value BK_PANNING (-40000) (-32767).
Proof. split; [apply playing_reachable; auto|]. exact (OV_panning (-40000)). Qed.

(** ** C76: muted tracks *)

(** From a mute on, or from a release without instrument and sustained sample, no pulse is
    added to any channel, however long the track is played, until it is changed again. *)
Theorem track_muted fuel t v t' ops t'' ls : BKTrackSetNote fuel t v = Ok t' ->
  v = BK_NOTE_MUTE \/ v = BK_NOTE_RELEASE /\ has t FInstr = false /\ un_sustain (tr_unit t) = false ->
  Forall played ops -> truns fuel t' ops = Ok (t'', ls) -> Forall (Forall (fun channel => channel = [])) ls.
Proof. intros E HV F ER. exact (proj2 (plays_silent fuel ops t' t'' ls F (note_ends fuel t v t' E HV) ER)). Qed.
Example track_muted_ex : exists t', BKTrackSetNote 1000 (track_after BK_SQUARE playing) BK_NOTE_RELEASE = Ok t' /\
  exists t'' ls, truns 1000 t' [OTick; ORun 900; OEnd 900] = Ok (t'', ls) /\ length ls = 3%nat.
Proof. eexists. split; [vm_compute; reflexivity|]. eexists _, _. split; [vm_compute; reflexivity|]. reflexivity. Qed.
(** Without the mute the same calls add pulses. *)
Example track_loud_ex : exists t'' ls, truns 1000 (track_after BK_SQUARE playing) [OTick; ORun 900; OEnd 900] = Ok (t'', ls) /\ Exists (Exists (fun c => c <> [])) ls.
Proof. eexists _, _. split; [vm_compute; reflexivity|]. right. left. left. discriminate. Qed.

(** ** C77: clearing *)

(** After [BKTrackClear] the track is silent and has no note, instrument, arpeggio or effect,
    and volume, panning, pitch and dividers have their initial values. *)
Theorem track_clear fuel t : reachable fuel t -> exists t', BKTrackClear fuel t = Ok t' /\
  BKTrackGetAttr t' BK_NOTE = Ok (0, Some (-1)) /\ BKTrackGetAttr t' BK_MUTE <> Ok (0, Some 0) /\
  BKTrackGetAttr t' BK_VOLUME = Ok (0, Some 32767) /\ BKTrackGetAttr t' BK_PANNING = Ok (0, Some 0) /\
  BKTrackGetAttr t' BK_MASTER_VOLUME = BKTrackGetAttr t BK_MASTER_VOLUME /\ BKTrackGetAttr t' BK_SAMPLE_PITCH = Ok (0, Some 0) /\
  BKTrackGetAttr t' BK_ARPEGGIO_DIVIDER = Ok (0, Some 4) /\ BKTrackGetAttr t' BK_INSTRUMENT_DIVIDER = Ok (0, Some 4) /\ BKTrackGetAttr t' BK_EFFECT_DIVIDER = Ok (0, Some 1) /\
  BKTrackGetPtr t' BK_INSTRUMENT 8 = (0, [0]) /\ hd 0 (snd (BKTrackGetPtr t' BK_ARPEGGIO 36)) = 0 /\ tr_pitch t' = 0 /\
  has t' FInstr = false /\ has t' FArp = false /\ any_effect t' = false.
Proof.
  intros R. pose proof (reachable_ok _ _ R) as H. destruct (clear_ok fuel t H) as (t' & E & _). exists t'. split; [exact E|].
  destruct (clear_fresh fuel t t' (tk_master _ _ H) E) as [(F1 & F2) (A1 & A2 & _) FE _ _ (D1 & D2 & D3) FM (_ & FV) (_ & FP) (FN & _) (P1 & P2) _ FS].
  split. { change (@Ok (Z * option Z) (0, Some (tr_curNote t')) = Ok (0, Some (-1))). rewrite FN. reflexivity. }
  split. { change (@Ok (Z * option Z) (0, Some (un_mute (tr_unit t'))) <> Ok (0, Some 0)). unfold silent in FS. congruence. }
  split; [exact FV|]. split; [exact FP|].
  split. { change (@Ok (Z * option Z) (0, Some (tr_master t')) = Ok (0, Some (tr_master t))). rewrite FM. reflexivity. }
  split. { change (@Ok (Z * option Z) (0, Some (tr_samplePitch t')) = Ok (0, Some 0)). rewrite P2. reflexivity. }
  split. { change (@Ok (Z * option Z) (0, Some (ds_divider (tr_arpDiv t'))) = Ok (0, Some 4)). rewrite D1. reflexivity. }
  split. { change (@Ok (Z * option Z) (0, Some (ds_divider (tr_instrDiv t'))) = Ok (0, Some 4)). rewrite D2. reflexivity. }
  split. { change (@Ok (Z * option Z) (0, Some (ds_divider (tr_effDiv t'))) = Ok (0, Some 1)). rewrite D3. reflexivity. }
  split. { change ((0, [match tr_instr t' with Some (id, _) => id | None => 0 end]) = (0, [0])). rewrite F2. reflexivity. }
  split. { unfold BKTrackGetPtr. change (attr_type BK_ARPEGGIO =? BK_EFFECT_TYPE) with false. cbn [Z.eqb BK_ARPEGGIO BK_INSTRUMENT]. cbv beta iota zeta. try (cbn [Pos.eqb]; cbv iota). rewrite ?A2. reflexivity. }
  auto.
Qed.
Example track_clear_ex : exists t', BKTrackClear 1000 (track_after BK_SQUARE restart) = Ok t' /\ tr_arpDiv (track_after BK_SQUARE restart) <> tr_arpDiv t' /\
  BKTrackGetAttr (track_after BK_SQUARE restart) BK_NOTE = Ok (0, Some 50331648).
Proof. eexists. split; [vm_compute; reflexivity|]. split; vm_compute; [discriminate|reflexivity]. Qed.

(** ** C78: the deprecated [BKTrackSetPtr] *)

(** [BKTrackSetPtr], BKTrack.c lines 1052-1055, passes a size of 0. *)
Definition BKTrackSetPtrOld (fuel : nat) (t : track) (attr : Z) (ptr : tptr) : res (track * Z) := BKTrackSetPtr fuel t attr ptr 0.

(** It switches every effect off whatever it is given. *)
Theorem old_set_ptr_off fuel t effect k mem t' r : effect_flag effect = Some k -> BKTrackSetPtrOld fuel t effect (TInts mem) = Ok (t', r) -> r = 0 /\ has t' k = false.
Proof.
  intros EF E. unfold BKTrackSetPtrOld, BKTrackSetPtr in E. assert (TY : attr_type effect =? BK_EFFECT_TYPE = true).
  { unfold effect_flag in EF. repeat match type of EF with context [?a =? ?b] => destruct (Z.eqb_spec a b) as [-> |_]; [reflexivity|] end. discriminate EF. }
  rewrite TY in E. exact (effect_off t effect k mem t' r EF E).
Qed.
Theorem old_set_ptr_refuted : exists t t1 t2 mem, reachable 1000 t /\
  BKTrackSetPtr 1000 t BK_EFFECT_TREMOLO (TInts mem) 12 = Ok (t1, 0) /\ BKTrackSetPtrOld 1000 t BK_EFFECT_TREMOLO (TInts mem) = Ok (t2, 0) /\
  has t1 FTremolo = true /\ has t2 FTremolo = false /\ snd (BKTrackGetPtr t1 BK_EFFECT_TREMOLO 12) <> snd (BKTrackGetPtr t2 BK_EFFECT_TREMOLO 12).
Proof.
  exists (track_after BK_SQUARE playing). eexists _, _, [8; 100; 3]. split; [apply playing_reachable; auto|]. split; [vm_compute; reflexivity|]. split; [vm_compute; reflexivity|].
  split; [vm_compute; reflexivity|]. split; [vm_compute; reflexivity|]. vm_compute. discriminate.
Qed.

(** ** C79: volume slides *)

(** A slide of [n] steps reaches the new volume with the [n]-th tick of the effect divider. *)
Theorem volume_slide_partial fuel t n m v k : reachable fuel t -> 1 <= n <= 65536 -> 1 <= m < 2147483648 -> 0 <= v <= 32767 ->
  slide_good (tr_volume t) v n -> (n - 1) * m + 1 <= Z.of_nat k ->
  exists t1 t2 t3 t4, BKTrackSetAttr fuel t BK_EFFECT_VOLUME_SLIDE n = Ok (t1, 0) /\ BKTrackSetAttr fuel t1 BK_EFFECT_DIVIDER m = Ok (t2, 0) /\
    BKTrackSetAttr fuel t2 BK_VOLUME v = Ok (t3, 0) /\ ticks fuel k t3 = Ok t4 /\ BKSlideStateGetValue (tr_volume t4) = Ok v.
Proof.
  intros R HN HM HV G HK. pose proof (reachable_ok _ _ R) as H. pose proof (tk_volume _ _ H) as IV.
  assert (L15 := target15 0 ltac:(lia)). assert (U15 := target15 32767 ltac:(lia)).
  assert (K1 : exists s1, BKSlideStateSetSteps (tr_volume t) n = Ok s1 /\ slide_in 15 0 32767 s1 /\ sl_steps s1 = n /\ sl_value s1 = sl_value (tr_volume t)).
  { unfold BKSlideStateSetSteps. pose proof (proj1 IV) as I0. rewrite (si_sh _ _ I0), shr_P by lia. pose proof (P_pos 15 ltac:(lia)) as HP. pose proof (si_mult _ _ I0) as MU. destruct IV as (_ & _ & BE).
    destruct (in_set 15 0 32767 ltac:(lia) L15 U15 (tr_volume t) (sl_endValue (tr_volume t) / P 15) n (tk_volume _ _ H) ltac:(nia) ltac:(lia)) as (s1 & E & I1 & _ & ES & _ & EV).
    exists s1. split; [exact E|]. split; [exact I1|]. split; [lia|]. apply EV. lia. }
  destruct K1 as (s1 & E1 & I1 & N1 & V1).
  assert (CL : BKClamp n 0 BK_TRACK_EFFECT_MAX_STEPS = n) by (unfold BK_TRACK_EFFECT_MAX_STEPS; rewrite clamp_minmax by lia; lia).
  assert (S1 : exists t1, BKTrackSetAttr fuel t BK_EFFECT_VOLUME_SLIDE n = Ok (t1, 0) /\ track_ok fuel t1 /\ tr_volume t1 = s1 /\ has t1 FVolSlide = true /\ tr_waveform t1 = tr_waveform t).
  { destruct (attr_ok fuel t BK_EFFECT_VOLUME_SLIDE n H) as (t1 & r & E & HO).
    { unfold in_s32. lia. } { intros [?|?]; discriminate. } { intros [(? & _)|(? & _)]; discriminate. } { intros [?|[?|?]]; discriminate. }
    pose proof E as E'. change (BKTrackSetAttr fuel t BK_EFFECT_VOLUME_SLIDE n) with (BKTrackSetEffect t BK_EFFECT_VOLUME_SLIDE (Some [n; 0]) 8) in E'.
    unfold BKTrackSetEffect in E'. change (effect_values (Some [n; 0]) 8) with (Ok [n; 0; 0]) in E'. cbn [bind] in E'. cbv zeta in E'. cbn [nth] in E'. rewrite CL in E'.
    change (effect_flag BK_EFFECT_VOLUME_SLIDE) with (Some FVolSlide) in E'. cbv iota in E'. rewrite E1 in E'. cbn [bind] in E'.
    exists t1. assert (r = 0) as -> by (change (Ok (put (put (t_volume t s1) FVolume true) FVolSlide (negb (n =? 0)), 0) = Ok (t1, r)) in E'; congruence).
    assert (ET : t1 = put (put (t_volume t s1) FVolume true) FVolSlide (negb (n =? 0))) by (change (Ok (put (put (t_volume t s1) FVolume true) FVolSlide (negb (n =? 0)), 0) = Ok (t1, 0)) in E'; congruence).
    split; [exact E|]. split; [exact HO|]. rewrite ET. replace (n =? 0) with false by lia. split; [reflexivity|]. split; reflexivity. }
  destruct S1 as (t1 & ET1 & H1 & TV1 & TF1 & _).
  set (t2 := t_effDiv t1 (mk_dstate m 0)). assert (H2 : track_ok fuel t2) by (apply ok_effDiv; [exact H1|split; cbn; lia]).
  assert (TV2 : tr_volume t2 = s1) by exact TV1.
  destruct (set_pos 15 s1 v n (proj1 I1) ltac:(lia)) as (s3 & E3 & I3 & F1 & F2 & F3 & F4 & F5 & F6); [apply (in_target 15 0 32767); auto; lia|lia|].
  assert (S3 : exists t3, BKTrackSetAttr fuel t2 BK_VOLUME v = Ok (t3, 0) /\ track_ok fuel t3 /\ tr_volume t3 = s3 /\ has t3 FVolSlide = true /\ tr_effDiv t3 = mk_dstate m 0).
  { destruct (attr_ok fuel t2 BK_VOLUME v H2) as (t3 & r & E & HO).
    { unfold in_s32. lia. } { intros [?|?]; discriminate. } { intros [(? & _)|(? & _)]; discriminate. } { intros [?|[?|?]]; discriminate. }
    pose proof E as E'. change (BKTrackSetAttr fuel t2 BK_VOLUME v) with (let* x := BKTrackSetVolume t2 v in @Ok (track * Z) (x, 0)) in E'. unfold BKTrackSetVolume in E'.
    change BK_MAX_VOLUME with 32767 in E'. rewrite clamp_minmax in E' by lia. replace (Z.max 0 (Z.min 32767 v)) with v in E' by lia. rewrite TV2 in E'. unfold BKSlideStateSetValue in E'. rewrite N1, E3 in E'. cbn [bind] in E'.
    exists t3. assert (r = 0) as -> by congruence. split; [exact E|]. split; [exact HO|]. match type of E' with Ok (?x, _) = _ => assert (t3 = x) as -> by congruence end. auto. }
  destruct S3 as (t3 & ET3 & H3 & TV3 & TF3 & TD3).
  destruct (ticks_ticked fuel k t3 H3) as (t4 & E4 & _ & TB). exists t1, t2, t3, t4. split; [exact ET1|]. split; [reflexivity|]. split; [exact ET3|]. split; [exact E4|].
  assert (TV := tb_volume _ _ _ TB). rewrite TF3, TD3, TV3 in TV. unfold slides_if in TV.
  assert (FI : n <= fired (mk_dstate m 0) k). { unfold fired. cbn [ds_divider ds_counter]. apply Z.div_le_lower_bound; [lia|]. nia. }
  destruct (steps_spec 15 (Z.to_nat (fired (mk_dstate m 0) k)) s3 I3) as (s4 & E4' & I4 & G1 & G2 & G3 & G4). rewrite TV in E4'. assert (s4 = tr_volume t4) as -> by congruence.
  apply (get_exact 15); [exact I4| |lia|].
  - unfold bias_ok. rewrite G2. apply F6. unfold slide_good in *. rewrite V1, (si_sh _ _ (proj1 I1)). rewrite (si_sh _ _ (proj1 IV)) in G. exact G.
  - rewrite G4, F1. replace (n =? 0) with false by lia. rewrite Z2Nat.id by lia. destruct (Z.ltb_spec (fired (mk_dstate m 0) k) n); [lia|]. exact F4.
Qed.
Example volume_slide_ex : reachable 1000 (track_after BK_SQUARE (playing ++ [OAttr BK_VOLUME 100])) /\ slide_good (tr_volume (track_after BK_SQUARE (playing ++ [OAttr BK_VOLUME 100]))) 20000 100.
Proof. split; [fines|]. right. left. vm_compute. discriminate. Qed.

Lemma evaluated {A} (r : res A) (Q : A -> Prop) : match r with Ok a => Q a | Err _ => False end -> exists a, r = Ok a /\ Q a.
Proof. destruct r; [eauto|tauto]. Qed.

(** Slides downwards by little in many steps end above their target: from 1 to 0 in 256 steps a
    track never gets silent. *)
Theorem volume_slide_refuted : exists fuel t n v k t1 t2 t4 w, reachable fuel t /\ 1 <= n <= 65536 /\ 0 <= v <= 32767 /\ n <= Z.of_nat k /\
  BKTrackSetAttr fuel t BK_EFFECT_VOLUME_SLIDE n = Ok (t1, 0) /\ has t1 FVolSlide = true /\ BKTrackSetAttr fuel t1 BK_EFFECT_DIVIDER 1 = Ok (t2, 0) /\
  (let* (t3, _) := BKTrackSetAttr fuel t2 BK_VOLUME v in ticks fuel k t3) = Ok t4 /\ BKSlideStateGetValue (tr_volume t4) = Ok w /\ w <> v.
Proof.
  set (t := track_after BK_SQUARE (playing ++ [OAttr BK_VOLUME 1])).
  exists 1000%nat, t, 256, 0, 256%nat.
  destruct (evaluated (let* (t1, r) := BKTrackSetAttr 1000 t BK_EFFECT_VOLUME_SLIDE 256 in let* (t2, r2) := BKTrackSetAttr 1000 t1 BK_EFFECT_DIVIDER 1 in
    let* t4 := (let* (t3, _) := BKTrackSetAttr 1000 t2 BK_VOLUME 0 in ticks 1000 256 t3) in Ok (t1, r, t2, r2, t4))
    (fun p => let '(t1, r, t2, r2, t4) := p in r = 0 /\ r2 = 0 /\ has t1 FVolSlide = true /\ BKSlideStateGetValue (tr_volume t4) = Ok 1)) as ([[[[t1 r] t2] r2] t4] & E & -> & -> & F & W).
  { vm_compute. repeat split. }
  destruct (BKTrackSetAttr 1000 t BK_EFFECT_VOLUME_SLIDE 256) as [[u1 q1]|?] eqn:E1; cbn [bind] in E; [|discriminate].
  destruct (BKTrackSetAttr 1000 u1 BK_EFFECT_DIVIDER 1) as [[u2 q2]|?] eqn:E2; cbn [bind] in E; [|discriminate].
  match type of E with bind ?x _ = _ => destruct x as [u4|?] eqn:E3; cbn [bind] in E; [|discriminate] end.
  assert (u1 = t1) as -> by congruence. assert (q1 = 0) as -> by congruence. assert (u2 = t2) as -> by congruence. assert (q2 = 0) as -> by congruence. assert (u4 = t4) as -> by congruence.
  exists t1, t2, t4, 1. split; [unfold t; fines|]. split; [lia|]. split; [lia|]. split; [lia|]. split; [reflexivity|]. split; [exact F|]. split; [exact E2|]. split; [exact E3|]. split; [exact W|]. lia.
Qed.

Print Assumptions track_volume_partial.
Print Assumptions track_silent_partial.
Print Assumptions track_monotone_partial.
Print Assumptions track_panning.
Print Assumptions track_silent_refuted.
Print Assumptions effect_readback_partial.
Print Assumptions effect_scaled_partial.
Print Assumptions effect_readback_refuted.
Print Assumptions note_readback.
Print Assumptions note_defined.
Print Assumptions arpeggio_cycles_partial.
Print Assumptions arpeggio_index.
Print Assumptions arpeggio_negative_refuted.
Print Assumptions arpeggio_start_refuted.
Print Assumptions dividers_partial.
Print Assumptions dividers_refuted.
Print Assumptions pitch_next_note_partial.
Print Assumptions pitch_refuted.
Print Assumptions attach_rate_partial.
Print Assumptions attach_rate_refuted.
Print Assumptions track_safe_partial.
Print Assumptions track_safe_refuted.
Print Assumptions track_attr_partial.
Print Assumptions track_pitch_refuted.
Print Assumptions track_muted.
Print Assumptions track_clear.
Print Assumptions old_set_ptr_off.
Print Assumptions old_set_ptr_refuted.
Print Assumptions volume_slide_partial.
Print Assumptions volume_slide_refuted.
