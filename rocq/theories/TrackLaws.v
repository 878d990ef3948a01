(** What calls do to a track: attributes, arpeggios, attaching and clearing. *)
From Verif Require Import CInt CIntFacts DataModel UnitModel UnitSpec UnitProofs UnitProofs2 UnitProofs5 UnitInv UnitInv2 UnitInv3 UnitCount
  InterpModel InterpProofs IntervalProofs SlideIn ToneModel PropertiesTone SequenceModel TrackModel TrackSpec TrackInv TrackProofs TrackProofs2
  TrackProofs3 TrackProofs4 TrackProofs5 TrackProofs6 TrackVolume TrackPlay TrackTicks TrackNote TrackAttrs.
Ltac Zify.zify_post_hook ::= idtac.

(** ** Attributes *)

(** The attributes of a track that are members of it, and the values they take. *)
Inductive own_value : Z -> Z -> Z -> Prop :=
| OV_master v : own_value BK_MASTER_VOLUME v (Z.max 0 (Z.min 32767 v))
| OV_volume v : own_value BK_VOLUME v (Z.max 0 (Z.min 32767 v))
| OV_panning v : own_value BK_PANNING v (Z.max (-32767) (Z.min 32767 v))
| OV_pitch v : own_value BK_SAMPLE_PITCH v (Z.max (- MAX_PITCH) (Z.min MAX_PITCH v))
| OV_arpDiv v : own_value BK_ARPEGGIO_DIVIDER v v
| OV_effDiv v : own_value BK_EFFECT_DIVIDER v v
| OV_instrDiv v : own_value BK_INSTRUMENT_DIVIDER v v
| OV_tri v : own_value BK_TRIANGLE_IGNORES_VOLUME v (if v =? 0 then 0 else 1)
| OV_volSlide v : own_value BK_EFFECT_VOLUME_SLIDE v (Z.max 0 (Z.min 65536 v))
| OV_panSlide v : own_value BK_EFFECT_PANNING_SLIDE v (Z.max 0 (Z.min 65536 v))
| OV_porta v : own_value BK_EFFECT_PORTAMENTO v (Z.max 0 (Z.min 65536 v)).

Definition own_attrs : list Z :=
  [BK_MASTER_VOLUME; BK_VOLUME; BK_PANNING; BK_SAMPLE_PITCH; BK_ARPEGGIO_DIVIDER; BK_EFFECT_DIVIDER; BK_INSTRUMENT_DIVIDER;
   BK_TRIANGLE_IGNORES_VOLUME; BK_EFFECT_VOLUME_SLIDE; BK_EFFECT_PANNING_SLIDE; BK_EFFECT_PORTAMENTO].

Lemma shr_mul v sh : 0 <= sh -> Z.shiftr (v * P sh) sh = v.
Proof. intros H. rewrite shr_P by exact H. apply Z.div_mul. pose proof (P_pos sh H). lia. Qed.

Ltac others := let b := fresh in let B := fresh in let N := fresh in intros b B N;
  repeat (destruct B as [<- |B]; [first [reflexivity|congruence]|]); destruct B.

Lemma slide_attr fuel t attr v : track_ok fuel t -> attr = BK_EFFECT_VOLUME_SLIDE \/ attr = BK_EFFECT_PANNING_SLIDE \/ attr = BK_EFFECT_PORTAMENTO ->
  exists t', BKTrackSetAttr fuel t attr v = Ok (t', 0) /\ BKTrackGetAttr t' attr = Ok (0, Some (Z.max 0 (Z.min 65536 v))) /\
    (forall b, In b own_attrs -> b <> attr -> BKTrackGetAttr t' b = BKTrackGetAttr t b).
Proof.
  intros H HA. pose proof (clamp_range v 0 BK_TRACK_EFFECT_MAX_STEPS ltac:(discriminate)) as B0.
  rewrite <- (clamp_minmax v 0 65536) by lia. change (BKClamp v 0 65536) with (BKClamp v 0 BK_TRACK_EFFECT_MAX_STEPS).
  replace (BKTrackSetAttr fuel t attr v) with (BKTrackSetEffect t attr (Some [v; 0]) 8) by (destruct HA as [-> |[-> | ->]]; reflexivity).
  unfold BKTrackSetEffect. change (effect_values (Some [v; 0]) 8) with (Ok [v; 0; 0]). cbn [bind]. cbv zeta. cbn [nth].
  set (n := BKClamp v _ _) in *. clearbody n. unfold BK_TRACK_EFFECT_MAX_STEPS in B0. destruct HA as [-> |[-> | ->]].
  - change (effect_flag BK_EFFECT_VOLUME_SLIDE) with (Some FVolSlide). cbv iota.
    destruct (in_steps 15 0 32767 ltac:(lia) (target15 0 ltac:(lia)) (target15 32767 ltac:(lia)) (tr_volume t) n (tk_volume _ _ H) ltac:(lia)) as (s & -> & (I & _) & E & ES). cbn [bind].
    eexists. split; [reflexivity|]. split.
    + replace n with (Z.max 0 n) by lia. rewrite <- ES. reflexivity.
    + assert (SH : Z.shiftr (sl_endValue s) (sl_valueShift s) = Z.shiftr (sl_endValue (tr_volume t)) (sl_valueShift (tr_volume t)))
        by (rewrite E, (si_sh _ _ I), (si_sh _ _ (proj1 (tk_volume _ _ H))); reflexivity).
      intros b B N. repeat (destruct B as [<- |B]; [first [congruence|reflexivity|exact (f_equal (fun x => @Ok (Z * option Z) (0, Some x)) SH)]|]). destruct B.
  - change (effect_flag BK_EFFECT_PANNING_SLIDE) with (Some FPanSlide). cbv iota.
    destruct (in_steps 15 (-32767) 32767 ltac:(lia) (target15 (-32767) ltac:(lia)) (target15 32767 ltac:(lia)) (tr_panning t) n (tk_panning _ _ H) ltac:(lia)) as (s & -> & (I & _) & E & ES). cbn [bind].
    eexists. split; [reflexivity|]. split.
    + replace n with (Z.max 0 n) by lia. rewrite <- ES. reflexivity.
    + assert (SH : Z.shiftr (sl_endValue s) (sl_valueShift s) = Z.shiftr (sl_endValue (tr_panning t)) (sl_valueShift (tr_panning t)))
        by (rewrite E, (si_sh _ _ I), (si_sh _ _ (proj1 (tk_panning _ _ H))); reflexivity).
      intros b B N. repeat (destruct B as [<- |B]; [first [congruence|reflexivity|exact (f_equal (fun x => @Ok (Z * option Z) (0, Some x)) SH)]|]). destruct B.
  - change (effect_flag BK_EFFECT_PORTAMENTO) with (Some FPorta). cbv iota.
    destruct (in_steps 0 0 MAX_NOTE ltac:(lia) (target0 0 ltac:(lia)) (target0 MAX_NOTE ltac:(unfold MAX_NOTE; lia)) (tr_note t) n (tk_note _ _ H) ltac:(lia)) as (s & -> & I & _ & ES). cbn [bind].
    eexists. split; [reflexivity|]. split.
    + replace n with (Z.max 0 n) by lia. rewrite <- ES. reflexivity.
    + others.
Qed.

Lemma own_attr fuel t attr v w : track_ok fuel t -> own_value attr v w ->
  exists t', BKTrackSetAttr fuel t attr v = Ok (t', 0) /\ BKTrackGetAttr t' attr = Ok (0, Some w) /\
    (forall b, In b own_attrs -> b <> attr -> BKTrackGetAttr t' b = BKTrackGetAttr t b).
Proof.
  intros H HV. destruct HV; try (apply slide_attr; [exact H|tauto]).
  - eexists. split; [reflexivity|]. split; [|others]. rewrite <- (clamp_minmax v 0 32767) by lia. reflexivity.
  - change (BKTrackSetAttr fuel t BK_VOLUME v) with (let* x := BKTrackSetVolume t v in Ok (x, 0)). unfold BKTrackSetVolume.
    rewrite <- (clamp_minmax v 0 32767) by lia. change BK_MAX_VOLUME with 32767. pose proof (clamp_range v 0 32767 ltac:(lia)) as B. set (n := BKClamp v 0 32767) in *. clearbody n.
    destruct (in_value 15 0 32767 ltac:(lia) (target15 0 ltac:(lia)) (target15 32767 ltac:(lia)) (tr_volume t) n (tk_volume _ _ H) B) as (s & -> & (I & _) & EV & ES & _). cbn [bind].
    eexists. split; [reflexivity|]. split.
    + match goal with |- BKTrackGetAttr ?x BK_VOLUME = _ => change (BKTrackGetAttr x BK_VOLUME) with (@Ok (Z * option Z) (0, Some (Z.shiftr (sl_endValue s) (sl_valueShift s)))) end.
      rewrite EV, (si_sh _ _ I), shr_mul by lia. reflexivity.
    + intros b B' N. repeat (destruct B' as [<- |B']; [first [congruence|reflexivity|exact (f_equal (fun x => @Ok (Z * option Z) (0, Some x)) ES)]|]). destruct B'.
  - change (BKTrackSetAttr fuel t BK_PANNING v) with (let* x := BKTrackSetPanning t v in Ok (x, 0)). unfold BKTrackSetPanning.
    rewrite <- (clamp_minmax v (-32767) 32767) by lia. change BK_MAX_VOLUME with 32767. change (- (32767)) with (-32767). pose proof (clamp_range v (-32767) 32767 ltac:(lia)) as B. set (n := BKClamp v (-32767) 32767) in *. clearbody n.
    destruct (in_value 15 (-32767) 32767 ltac:(lia) (target15 (-32767) ltac:(lia)) (target15 32767 ltac:(lia)) (tr_panning t) n (tk_panning _ _ H) B) as (s & -> & (I & _) & EV & ES & _). cbn [bind].
    eexists. split; [reflexivity|]. split.
    + match goal with |- BKTrackGetAttr ?x BK_PANNING = _ => change (BKTrackGetAttr x BK_PANNING) with (@Ok (Z * option Z) (0, Some (Z.shiftr (sl_endValue s) (sl_valueShift s)))) end.
      rewrite EV, (si_sh _ _ I), shr_mul by lia. reflexivity.
    + intros b B' N. repeat (destruct B' as [<- |B']; [first [congruence|reflexivity|exact (f_equal (fun x => @Ok (Z * option Z) (0, Some x)) ES)]|]). destruct B'.
  - eexists. split; [reflexivity|]. split; [|others]. rewrite <- clamp_minmax by (unfold MAX_PITCH; lia). reflexivity.
  - eexists. split; [reflexivity|]. split; [reflexivity|others].
  - eexists. split; [reflexivity|]. split; [reflexivity|others].
  - eexists. split; [reflexivity|]. split; [reflexivity|others].
  - eexists. split; [reflexivity|]. split; [|others]. unfold BKTrackUpdateIgnoreVolume. destruct (v =? 0); reflexivity.
Qed.

(** ** Arpeggio *)

Lemma set_arpeggio fuel t notes : track_ok fuel t -> 1 <= Z.of_nat (length notes) <= 8 -> Forall (fun v => Z.abs v <= MAX_NOTE) notes ->
  exists t', BKTrackSetPtr fuel t BK_ARPEGGIO (TInts (Z.of_nat (length notes) :: notes)) (4 * (Z.of_nat (length notes) + 1)) = Ok (t', 0) /\ track_ok fuel t' /\
    t' = put (put (t_arpeggio t (mk_arp (if ar_offset (tr_arpeggio t) >=? Z.of_nat (length notes) then 0 else ar_offset (tr_arpeggio t)) (ar_delta (tr_arpeggio t)) (Z.of_nat (length notes))
                                        (notes ++ skipn (length notes) (ar_notes (tr_arpeggio t))))) FArp true) FNote true.
Proof.
  intros H L F. set (n := Z.of_nat (length notes)) in *.
  destruct (notes_ok fuel t notes n H ltac:(lia) ltac:(unfold n; lia)) as (t' & E & H' & ET).
  { unfold n. rewrite Nat2Z.id, firstn_all. exact F. }
  exists t'. split; [|split; [exact H'|]].
  - change (BKTrackSetPtr fuel t BK_ARPEGGIO (TInts (n :: notes)) (4 * (n + 1))) with
      (let* (mem, count) := (if 4 * (n + 1) =? 0 then Ok (n :: notes, 0) else Ok (n :: notes, s32 (u32 (BKMin n BK_MAX_ARPEGGIO)))) in
       let* t := BKTrackArpeggioSetNotes t (tl mem) count in Ok (t, 0)).
    destruct (Z.eqb_spec (4 * (n + 1)) 0) as [C|_]; [lia|]. cbn [bind tl].
    replace (BKMin n BK_MAX_ARPEGGIO) with n by (unfold BKMin, BK_MAX_ARPEGGIO; destruct (Z.ltb_spec n 8); lia).
    rewrite u32_id, s32_id by lia. rewrite E. reflexivity.
  - rewrite ET. unfold n. rewrite Nat2Z.id, firstn_all. fold n. destruct (Z.gtb_spec n 0); [reflexivity|lia].
Qed.

(** ** Attaching *)

Lemma marks_has' t t' k : marks t t' -> k <> FVolume -> k <> FNote -> k <> FDuty -> has t' k = has t k.
Proof. intros (u & a & b & c & ->) H1 H2 H3. destruct t as [? ? ? f]. destruct f, k; try reflexivity; congruence. Qed.
Lemma attach_state fuel t n rate time t' : track_ok fuel t -> 1 <= n <= 8 -> 0 <= time < 4294967296 -> uop_careful (tr_unit t) (UAttach n time) ->
  BKTrackAttach t n rate time = Ok (t', 0) ->
  track_ok fuel t' /\ un_ctx (tr_unit t') <> None /\ tr_rate t' = rate /\
  (forall k, k <> FVolume -> k <> FNote -> k <> FDuty -> k <> FPan -> has t' k = has t k) /\ tr_curNote t' = tr_curNote t /\ tr_note t' = tr_note t /\
  tr_pitch t' = tr_pitch t /\ tr_waveform t' = tr_waveform t /\ tr_samplePitch t' = tr_samplePitch t /\ tr_arpeggio t' = tr_arpeggio t /\ tr_arpDiv t' = tr_arpDiv t.
Proof.
  intros H Hn Ht HC E. destruct (attach_ok fuel t n rate time H Hn Ht HC) as (t1 & r & E1 & H1). rewrite E in E1. assert (t1 = t') as -> by congruence. clear E1 r.
  split; [exact H1|]. unfold BKTrackAttach in E. destruct (BKUnitAttach (tr_unit t) n time) as (u & r) eqn:EU. destruct (Z.eqb_spec r 0) as [-> |C]; [|exfalso; congruence].
  assert (CU : un_ctx u <> None).
  { unfold BKUnitAttach in EU. destruct (un_ctx (tr_unit t)); [discriminate EU|]. match type of EU with (?x, _) = _ => assert (u = x) as -> by congruence end. discriminate. }
  cbv zeta in E. apply bind_inv in E. destruct E as (t2 & E & EX). assert (t2 = t') as -> by congruence. clear EX.
  match type of E with BKTrackUpdateUnit ?T = _ => set (t3 := T) in *; assert (H3 : track_ok fuel t3) end.
  { unfold t3. apply ok_put; [|discriminate]. assert (K : track_ok fuel (t_unit t u)).
    { apply ok_unit; [exact H|]. destruct (tk_unit _ _ H) as (S0 & C). replace u with (fst (BKUnitAttach (tr_unit t) n time)) by (rewrite EU; reflexivity).
      split; [apply attach_safe; auto|apply attach_counted; auto]. }
    destruct (n =? 2); [apply ok_put; [|discriminate]|]; apply ok_rate; exact K. }
  destruct (update_plays fuel t3 H3) as (t4 & E4 & _ & M & _ & C4 & _). rewrite E in E4. assert (t4 = t') as -> by congruence.
  assert (U3 : tr_unit t3 = u) by (unfold t3; destruct (n =? 2); reflexivity).
  rewrite C4, U3. split; [exact CU|].
  assert (F3 : forall k, k <> FVolume -> k <> FPan -> has t3 k = has t k).
  { intros k K1 K2. unfold t3. destruct (n =? 2); destruct k; try reflexivity; congruence. }
  assert (G3 : tr_rate t3 = rate /\ tr_curNote t3 = tr_curNote t /\ tr_note t3 = tr_note t /\ tr_pitch t3 = tr_pitch t /\ tr_waveform t3 = tr_waveform t /\
    tr_samplePitch t3 = tr_samplePitch t /\ tr_arpeggio t3 = tr_arpeggio t /\ tr_arpDiv t3 = tr_arpDiv t).
  { unfold t3. destruct (n =? 2); repeat split. }
  clearbody t3. assert (FF : forall k, k <> FVolume -> k <> FNote -> k <> FDuty -> k <> FPan -> has t' k = has t k).
  { intros k K1 K2 K3 K4. rewrite (marks_has' _ _ _ M K1 K2 K3). auto. }
  destruct M as (u' & a & b & c & ->). destruct G3 as (G1 & G2 & G4 & G5 & G6 & G7 & G8 & G9). split; [exact G1|]. split; [exact FF|]. auto 10.
Qed.

(** ** Clearing *)

(** A track that differs in its unit, waveform, duty cycle and pending changes only. *)
Definition core (t t' : track) : Prop :=
  exists u w d a b c i, t' = t_duty (t_waveform (t_unit (t_flags t (fset (fset (fset (fset (tr_flags t) FVolume a) FNote b) FDuty c) FIgnore i)) u) w) d.
Lemma core_refl t : core t t.
Proof. exists (tr_unit t), (tr_waveform t), (tr_duty t), (has t FVolume), (has t FNote), (has t FDuty), (has t FIgnore). destruct t as [? ? ? f]. destruct f. reflexivity. Qed.
Lemma core_unit t t' u : core t t' -> core t (t_unit t' u).
Proof. intros (u' & w & d & a & b & c & i & ->). exists u, w, d, a, b, c, i. reflexivity. Qed.
Lemma core_waveform t t' w : core t t' -> core t (t_waveform t' w).
Proof. intros (u & w' & d & a & b & c & i & ->). exists u, w, d, a, b, c, i. reflexivity. Qed.
Lemma core_duty t t' d : core t t' -> core t (t_duty t' d).
Proof. intros (u & w & d' & a & b & c & i & ->). exists u, w, d, a, b, c, i. reflexivity. Qed.
Lemma core_put t t' k x : core t t' -> k = FVolume \/ k = FNote \/ k = FDuty \/ k = FIgnore -> core t (put t' k x).
Proof.
  intros (u & w & d & a & b & c & i & ->) [-> |[-> |[-> | ->]]]; destruct t as [? ? ? f]; destruct f;
  [exists u, w, d, x, b, c, i|exists u, w, d, a, x, c, i|exists u, w, d, a, b, x, i|exists u, w, d, a, b, c, x]; reflexivity.
Qed.

Lemma note_unit t t' : BKTrackUpdateUnitNote t = Ok t' -> exists u, t' = t_unit t u.
Proof.
  unfold BKTrackUpdateUnitNote. destruct (un_ctx _); [|intros E; exists (tr_unit t); assert (t' = t) as -> by congruence; destruct t; reflexivity].
  intros E. apply bind_inv in E. destruct E as (n & _ & E). destruct (negb _).
  - apply bind_inv in E. destruct E as (p & _ & E). destruct (_ =? 0); [discriminate|]. apply unit_attr_inv in E. destruct E as (u & r & _ & ->). eauto.
  - apply bind_inv in E. destruct E as (m & _ & E). apply bind_inv in E. destruct E as (p & _ & E). apply unit_attr_inv in E. destruct E as (u & r & _ & ->). eauto.
Qed.
Lemma waveform_core fuel t v t' r : BKTrackSetAttr fuel t BK_WAVEFORM v = Ok (t', r) -> core t t'.
Proof.
  change (BKTrackSetAttr fuel t BK_WAVEFORM v) with
    (let* (u, ret) := BKUnitSetAttr (tr_unit t) BK_WAVEFORM v in
     if ret =? 0 then let* x := BKTrackUpdateUnitNote (BKTrackUpdateIgnoreVolume (t_waveform (t_unit t u) (s32 (un_waveform u)))) in Ok (x, ret)
     else Ok (t_unit t u, ret)).
  intros E. apply bind_inv in E. destruct E as ((u & q) & _ & E). destruct (q =? 0).
  - apply bind_inv in E. destruct E as (x & E1 & E). assert (t' = x) as -> by congruence. apply note_unit in E1. destruct E1 as (u' & ->). apply core_unit.
    unfold BKTrackUpdateIgnoreVolume. apply core_put; [|auto]. apply core_put; [|auto]. apply core_waveform, core_unit, core_refl.
  - assert (t' = t_unit t u) as -> by congruence. apply core_unit, core_refl.
Qed.
Lemma duty_core fuel t v t' r : BKTrackSetAttr fuel t BK_DUTY_CYCLE v = Ok (t', r) -> core t t'.
Proof.
  change (BKTrackSetAttr fuel t BK_DUTY_CYCLE v) with
    (let* (u, ret) := BKUnitSetAttr (tr_unit t) BK_DUTY_CYCLE v in
     Ok (put (if ret =? 0 then t_duty (t_unit t u) (s32 (un_duty u)) else t_unit t u) FDuty true, ret)).
  intros E. apply bind_inv in E. destruct E as ((u & q) & _ & E). match type of E with Ok (?x, _) = _ => assert (t' = x) as -> by congruence end.
  apply core_put; [|auto]. destruct (q =? 0); [apply core_duty|]; apply core_unit, core_refl.
Qed.
Lemma mute_core sp t t' : has t FInstr = false -> set_note_mute sp t = Ok t' -> core (t_note (t_curNote t (-1)) (BKSlideStateHalt (tr_note t) true)) t'.
Proof.
  intros HI E. unfold set_note_mute in E. cbv zeta in E. match type of E with bind (if ?b then _ else _) _ = _ => change b with (has t FInstr) in E end. rewrite HI in E. cbn [bind] in E.
  apply bind_inv in E. destruct E as (t2 & E2 & E). apply bind_inv in E. destruct E as (t3 & E3 & E).
  match type of E with Ok ?x = _ => assert (t' = x) as -> by congruence end.
  apply unit_attr_inv in E2. destruct E2 as (u2 & r2 & _ & ->). apply unit_attr_inv in E3. destruct E3 as (u3 & r3 & _ & ->).
  apply core_put; [|auto]. apply core_unit, core_unit, core_refl.
Qed.

(** The values behind a call of [BKTrackClear]. *)
Record fresh (t t' : track) : Prop := mk_fresh {
  fr_instr : has t' FInstr = false /\ tr_instr t' = None;
  fr_arp : has t' FArp = false /\ ar_count (tr_arpeggio t') = 0 /\ ar_delta (tr_arpeggio t') = 0 /\ ar_offset (tr_arpeggio t') = 0;
  fr_effects : any_effect t' = false;
  fr_tri : has t' FTri = has t FTri;
  fr_pan : has t' FPan = has t FPan;
  fr_div : tr_arpDiv t' = mk_dstate 4 0 /\ tr_instrDiv t' = mk_dstate 4 0 /\ tr_effDiv t' = mk_dstate 1 0;
  fr_master : tr_master t' = tr_master t;
  fr_volume : BKSlideStateGetValue (tr_volume t') = Ok 32767 /\ BKTrackGetAttr t' BK_VOLUME = Ok (0, Some 32767);
  fr_panning : BKSlideStateGetValue (tr_panning t') = Ok 0 /\ BKTrackGetAttr t' BK_PANNING = Ok (0, Some 0);
  fr_note : tr_curNote t' = -1 /\ BKSlideStateGetValue (tr_note t') = Ok 0 /\ sl_steps (tr_note t') = 0 /\ sl_roundBias (tr_note t') = 0;
  fr_pitch : tr_pitch t' = 0 /\ tr_samplePitch t' = 0;
  fr_slides : sl_steps (tr_volume t') = 0 /\ sl_steps (tr_panning t') = 0;
  fr_silent : silent t'
}.
Lemma instr_none_keeps fuel t t' : BKTrackSetInstrument fuel t None = Ok t' -> has t' FTri = has t FTri /\ has t' FPan = has t FPan.
Proof.
  intros E. unfold BKTrackSetInstrument in E. apply bind_inv in E. destruct E as (t1 & E1 & E). assert (t' = BKTrackInstrumentUpdateFlags t1 true) as -> by congruence. clear E.
  assert (K : has t1 FTri = has t FTri /\ has t1 FPan = has t FPan); [|destruct K as (<- & <-); split; reflexivity].
  destruct (negb _); [|assert (t1 = t) as -> by congruence; auto].
  apply bind_inv in E1. destruct E1 as (t2 & E2 & E1). unfold state_set_instrument in E2. assert (t2 = t_instr t None) as -> by congruence.
  match type of E1 with (if ?b then _ else _) = _ => change b with (tr_curNote t =? -1) in E1 end. destruct (tr_curNote t =? -1).
  - change (set_note_mute (track_set_phase fuel) (put (t_instr t None) FInstr false) = Ok t1) in E1. apply mute_core in E1; [|reflexivity].
    destruct E1 as (u & w & d & a & b & c & i & ->). split; reflexivity.
  - match type of E1 with Ok ?x = _ => assert (t1 = x) as -> by congruence end. split; reflexivity.
Qed.

Lemma clear_fresh fuel t t' : 0 <= tr_master t <= 32767 -> BKTrackClear fuel t = Ok t' -> fresh t t'.
Proof.
  intros HM E. unfold BKTrackClear in E. cbv zeta in E. apply bind_inv in E. destruct E as (u & _ & E). apply bind_inv in E. destruct E as (t0 & E0 & E).
  apply instr_none_keeps in E0. change (has (t_unit t u) FTri) with (has t FTri) in E0. change (has (t_unit t u) FPan) with (has t FPan) in E0.
  assert (S0 : exists s, BKSlideStateSetValue (BKSlideStateInit BK_MAX_VOLUME) 32767 = Ok s /\ BKSlideStateGetValue s = Ok 32767 /\ Z.shiftr (sl_endValue s) (sl_valueShift s) = 32767 /\ sl_steps s = 0).
  { eexists. split; [vm_compute; reflexivity|]. vm_compute. auto. }
  destruct S0 as (s & ES & EG & EE & EP).
  change (BKTrackSetAttr fuel (cleared t0) BK_VOLUME BK_MAX_VOLUME) with
    (let* x := (let* s := BKSlideStateSetValue (BKSlideStateInit BK_MAX_VOLUME) 32767 in Ok (put (t_volume (cleared t0) s) FVolume true)) in @Ok (track * Z) (x, 0)) in E.
  rewrite ES in E. cbn [bind] in E. set (t1 := put (t_volume (cleared t0) s) FVolume true) in *.
  change (BKTrackSetAttr fuel t1 BK_MASTER_VOLUME (tr_master t)) with (@Ok (track * Z) (put (t_master t1 (BKClamp (tr_master t) 0 32767)) FVolume true, 0)) in E. cbn [bind] in E.
  replace (BKClamp (tr_master t) 0 32767) with (tr_master t) in E by (rewrite clamp_minmax by lia; lia).
  set (t2 := put (t_master t1 (tr_master t)) FVolume true) in *.
  apply bind_inv in E. destruct E as ((t3 & r3) & E3 & E). apply bind_inv in E. destruct E as ((t4 & r4) & E4 & E). apply bind_inv in E. destruct E as ((t5 & r5) & E5 & E). apply bind_inv in E. destruct E as ((t6 & r6) & E6 & E).
  assert (t6 = t') as -> by congruence. clear E.
  apply waveform_core in E3. apply duty_core in E4.
  change (BKTrackSetAttr fuel t4 BK_NOTE BK_NOTE_MUTE) with (let* x := set_note_mute (track_set_phase fuel) t4 in @Ok (track * Z) (x, 0)) in E5.
  apply bind_inv in E5. destruct E5 as (t7 & E5 & EX). assert (t7 = t5) as -> by congruence. clear EX.
  change (BKTrackSetAttr fuel t5 BK_MUTE 1) with (let* (u, r) := BKUnitSetAttr (tr_unit t5) BK_MUTE 1 in @Ok (track * Z) (t_unit t5 u, r)) in E6.
  apply bind_inv in E6. destruct E6 as ((u6 & r) & E6 & EX). assert (t' = t_unit t5 u6) as -> by congruence. clear EX.
  assert (SI : silent (t_unit t5 u6)) by (apply (attr_mute _ _ _ _ _ E6); [tauto|auto]).
  destruct E3 as (? & ? & ? & ? & ? & ? & ? & ->). destruct E4 as (? & ? & ? & ? & ? & ? & ? & ->). apply mute_core in E5; [|reflexivity]. destruct E5 as (? & ? & ? & ? & ? & ? & ? & ->).
  unfold t2, t1. destruct E0 as (K1 & K2). constructor; try (exact SI); try (rewrite <- K1; reflexivity); try (rewrite <- K2; reflexivity); try (split; reflexivity); try reflexivity; try (repeat split; reflexivity).
  - split; [exact EG|]. exact (f_equal (fun x => @Ok (Z * option Z) (0, Some x)) EE).
  - split; [exact EP|reflexivity].
Qed.

(** ** Volumes *)

(** The volume of the instrument is not negative, and the tremolo not deeper than the volume. *)
Definition tame (t : track) : Prop :=
  (has t FInstr = true -> forall v, slot_value t BK_SEQUENCE_VOLUME = Ok v -> 0 <= v) /\
  (has t FTremolo = true -> has t FIgnore = false -> forall d, BKIntervalStateGetValue (tr_tremolo t) = Ok d -> Z.abs d <= 32767).

(** Two tracks that differ in volume and master volume. *)
Definition like (t t' : track) : Prop :=
  has t' FInstr = has t FInstr /\ has t' FTremolo = has t FTremolo /\ has t' FIgnore = has t FIgnore /\ has t' FPan = has t FPan /\
  tr_istate t' = tr_istate t /\ tr_tremolo t' = tr_tremolo t /\ tr_panning t' = tr_panning t.
Lemma like_louder t t' l l' v v' : like t t' -> measures t l -> measures t' l' -> BKSlideStateGetValue (tr_volume t) = Ok v -> BKSlideStateGetValue (tr_volume t') = Ok v' ->
  v <= v' -> tr_master t <= tr_master t' -> louder l l'.
Proof.
  intros (L1 & L2 & L3 & L4 & L5 & L6 & L7) (M1 & M2 & M3 & M4 & M5 & M6 & M7) (N1 & N2 & N3 & N4 & N5 & N6 & N7) EV EV' HV HM.
  unfold louder. rewrite M4, N4. assert (lv_volume l = v) as -> by congruence. assert (lv_volume l' = v') as -> by congruence. split; [exact HV|]. split; [exact HM|].
  split; [congruence|]. split.
  { destruct (lv_instr l) as [[a p]|], (lv_instr l') as [[a' p']|].
    - destruct M6 as (_ & A & B), N6 as (_ & A' & B'). unfold slot_value in *. rewrite L5 in A', B'. rewrite A in A'. rewrite B in B'. assert (a' = a) as -> by congruence. assert (p' = p) as -> by congruence. reflexivity.
    - destruct M6 as (A & _). congruence.
    - destruct N6 as (A & _). congruence.
    - reflexivity. }
  split.
  { intros NI. rewrite M3 in NI. destruct (lv_tremolo l) as [d|], (lv_tremolo l') as [d'|].
    - destruct M7 as (_ & A), N7 as (_ & A'). rewrite L3 in A'. specialize (A NI). specialize (A' NI). rewrite L6 in A'. assert (d' = d) as -> by congruence. reflexivity.
    - destruct M7 as (A & _). congruence.
    - destruct N7 as (A & _). congruence.
    - reflexivity. }
  split; [rewrite L7 in N2; congruence|congruence].
Qed.
Lemma like_mono fuel t t' l l' v v' : track_ok fuel t -> track_ok fuel t' -> tame t -> like t t' -> measures t l -> measures t' l' ->
  BKSlideStateGetValue (tr_volume t) = Ok v -> BKSlideStateGetValue (tr_volume t') = Ok v' -> v <= v' -> tr_master t <= tr_master t' ->
  forall k, channel l k <= channel l' k.
Proof.
  intros H H' (T1 & T2) L M M' EV EV' HV HM k. pose proof (like_louder _ _ _ _ _ _ L M M' EV EV' HV HM) as LO.
  destruct M as (M1 & M2 & M3 & M4 & M5 & M6 & M7). apply channel_mono; try assumption.
  - destruct (get_volume _ (tk_volume _ _ H)) as (x & Ex & Bx). assert (lv_volume l = x) as -> by congruence. lia.
  - rewrite M4. pose proof (tk_master _ _ H). lia.
  - destruct M' as (_ & _ & _ & -> & _). pose proof (tk_master _ _ H'). lia.
  - intros a p E. rewrite E in M6. destruct M6 as (A & B & _). exact (T1 A a B).
  - intros NI d E. rewrite M3 in NI. rewrite E in M7. destruct M7 as (A & B). exact (T2 A NI d (B NI)).
Qed.
Lemma like_marks t t' x y : like t t' -> marks t x -> marks t' y -> like x y.
Proof. intros L (? & ? & ? & ? & ->) (? & ? & ? & ? & ->). exact L. Qed.
Lemma tame_marks t x : marks t x -> tame t -> tame x.
Proof. intros (? & ? & ? & ? & ->) T. exact T. Qed.

(** The volume attribute sets the volume when no slide is set. *)
Lemma volume_now fuel t v t' : track_ok fuel t -> sl_steps (tr_volume t) = 0 -> BKTrackSetAttr fuel t BK_VOLUME v = Ok (t', 0) ->
  BKSlideStateGetValue (tr_volume t') = Ok (Z.max 0 (Z.min 32767 v) + sl_roundBias (tr_volume t) / 32768).
Proof.
  intros H HS E. change (BKTrackSetAttr fuel t BK_VOLUME v) with (let* x := BKTrackSetVolume t v in @Ok (track * Z) (x, 0)) in E. unfold BKTrackSetVolume in E.
  rewrite <- (clamp_minmax v 0 32767) by lia. change BK_MAX_VOLUME with 32767 in E. pose proof (clamp_range v 0 32767 ltac:(lia)) as B. set (n := BKClamp v 0 32767) in *. clearbody n.
  destruct (in_value 15 0 32767 ltac:(lia) (target15 0 ltac:(lia)) (target15 32767 ltac:(lia)) (tr_volume t) n (tk_volume _ _ H) B) as (s & ES & (I & _) & EV & _ & EB).
  rewrite ES in E. cbn [bind] in E. match type of E with Ok (?x, _) = _ => assert (t' = x) as -> by congruence end.
  change (BKSlideStateGetValue s = Ok (n + sl_roundBias (tr_volume t) / 32768)). destruct (EB HS) as (E1 & E2). rewrite (get_value 15 s I ltac:(lia)), E1, E2.
  rewrite P15. f_equal. rewrite Z.div_add_l by lia. reflexivity.
Qed.
