(** Property of stereo panning: C125. *)
From Verif Require Import CInt CIntFacts TimeModel DataModel UnitModel UnitSpec UnitProofs UnitProofs2 InterpModel ToneModel PropertiesTone SequenceModel TrackModel TrackSpec SlideIn InterpProofs UnitCount TrackProofs TrackProofs2 TrackProofs6 TrackNote TrackQuiet MixSpec PropertiesPeriod ContextModel ContextSpec ContextSame SafeSpec BufferSpec PropertiesSafe PlainModel PlainProofs PropertiesPlain HeldProofs PropertiesHeld PropertiesChord ResetSame TrackSame PropertiesTrack ResetReads PropertiesRestart.
Ltac Zify.zify_post_hook ::= idtac.

(** ** Volumes of a track *)

(** Exchanges the first two channels. *)
Definition exchange (l : list Z) : list Z := match l with a :: b :: r => b :: a :: r | _ => l end.

(** The update of the unit does not look at the panning except for the volumes. *)
Lemma update_note_panning t s : BKTrackUpdateUnitNote (t_panning t s) = let* t := BKTrackUpdateUnitNote t in Ok (t_panning t s).
Proof.
  unfold BKTrackUpdateUnitNote. change (tr_unit (t_panning t s)) with (tr_unit t). change (track_note (t_panning t s)) with (track_note t).
  change (tr_waveform (t_panning t s)) with (tr_waveform t). change (tr_rate (t_panning t s)) with (tr_rate t). change (tr_samplePitch (t_panning t s)) with (tr_samplePitch t).
  destruct (un_ctx (tr_unit t)); [|reflexivity]. destruct (track_note t); [|reflexivity]. cbn [bind]. unfold unit_attr. change (tr_unit (t_panning t s)) with (tr_unit t).
  destruct (negb _).
  - destruct (BKTonePeriodLookup _ _); [|reflexivity]. cbn [bind]. destruct (_ =? 0); [reflexivity|]. destruct (BKUnitSetAttr _ _ _) as [(? & ?)|]; reflexivity.
  - destruct (chk32 _); [|reflexivity]. cbn [bind]. destruct (BKLog2PeriodLookup _); [|reflexivity]. cbn [bind]. destruct (BKUnitSetAttr _ _ _) as [(? & ?)|]; reflexivity.
Qed.
Lemma update_duty_panning t s : BKTrackUpdateUnitDutyCycle (t_panning t s) = let* t := BKTrackUpdateUnitDutyCycle t in Ok (t_panning t s).
Proof.
  unfold BKTrackUpdateUnitDutyCycle. change (has (t_panning t s) FInstr) with (has t FInstr). change (TrackModel.slot_value (t_panning t s) BK_SEQUENCE_DUTY_CYCLE) with (TrackModel.slot_value t BK_SEQUENCE_DUTY_CYCLE).
  change (tr_duty (t_panning t s)) with (tr_duty t). destruct (if has t FInstr then _ else _); [|reflexivity]. cbn [bind].
  unfold unit_attr. change (tr_unit (t_panning t s)) with (tr_unit t). destruct (BKUnitSetAttr _ _ _) as [(? & ?)|]; reflexivity.
Qed.

(** The levels differ only in the panning. *)
Lemma levels_panning t p q v r : -32767 <= p <= 32767 -> -32767 <= q <= 32767 -> (has t FInstr = true -> TrackModel.slot_value t BK_SEQUENCE_PANNING = Ok 0) ->
  track_levels (t_panning t (slot 15 p)) = Ok (v, r) -> r = p /\ track_levels (t_panning t (slot 15 q)) = Ok (v, q).
Proof.
  intros P Q SV. unfold track_levels. change (tr_panning (t_panning t (slot 15 p))) with (slot 15 p). change (tr_panning (t_panning t (slot 15 q))) with (slot 15 q).
  rewrite !PropertiesChord.slot_value by lia.
  change (TrackModel.slot_value (t_panning t (slot 15 p))) with (TrackModel.slot_value t). change (TrackModel.slot_value (t_panning t (slot 15 q))) with (TrackModel.slot_value t).
  change (has (t_panning t (slot 15 p))) with (has t). change (has (t_panning t (slot 15 q))) with (has t).
  change (tr_volume (t_panning t (slot 15 p))) with (tr_volume t). change (tr_volume (t_panning t (slot 15 q))) with (tr_volume t).
  change (tr_tremolo (t_panning t (slot 15 p))) with (tr_tremolo t). change (tr_tremolo (t_panning t (slot 15 q))) with (tr_tremolo t).
  change (tr_master (t_panning t (slot 15 p))) with (tr_master t). change (tr_master (t_panning t (slot 15 q))) with (tr_master t).
  destruct (BKSlideStateGetValue (tr_volume t)) as [vol|]; [|discriminate]. cbn [bind]. cbv zeta.
  set (vv := if has t FIgnore && negb (vol =? 0) then BK_MAX_VOLUME else vol). clearbody vv.
  assert (G : forall (a : res Z) k, (let* (volume, panning) := (let* volume := a in Ok (volume, p)) in (let* w := k volume in Ok (w, panning))) = Ok (v, r) ->
    r = p /\ (let* (volume, panning) := (let* volume := a in Ok (volume, q)) in (let* w := k volume in Ok (w, panning))) = Ok (v, q)).
  { intros a k E. destruct a as [a|]; [|discriminate]. cbn [bind] in *. destruct (k a : res Z) as [w|]; [|discriminate]. cbn [bind] in *. injection E as -> <-. split; reflexivity. }
  pose (K := fun volume : Z => let* volume :=
    (if has t FTremolo && negb (has t FIgnore) then
       let* tremolo := BKIntervalStateGetValue (tr_tremolo t) in
       let* a := abs32 tremolo in
       let* tremolo := chk32 (BK_MAX_VOLUME - a) in
       let* m := chk32 (volume * tremolo) in
       Ok (Z.shiftr m BK_VOLUME_SHIFT)
     else Ok volume) in
    let volume := BKClamp volume 0 BK_MAX_VOLUME in
    let* m := chk32 (volume * tr_master t) in
    Ok (Z.shiftr m BK_VOLUME_SHIFT)).
  assert (KE : forall (volume pan : Z), (let* volume :=
    (if has t FTremolo && negb (has t FIgnore) then
       let* tremolo := BKIntervalStateGetValue (tr_tremolo t) in
       let* a := abs32 tremolo in
       let* tremolo := chk32 (BK_MAX_VOLUME - a) in
       let* m := chk32 (volume * tremolo) in
       Ok (Z.shiftr m BK_VOLUME_SHIFT)
     else Ok volume) in
    let volume := BKClamp volume 0 BK_MAX_VOLUME in
    let* m := chk32 (volume * tr_master t) in
    Ok (Z.shiftr m BK_VOLUME_SHIFT, pan)) = let* w := K volume in Ok (w, pan)).
  { intros volume pan. unfold K. destruct (if has t FTremolo && negb (has t FIgnore) then _ else _); [|reflexivity]. cbn [bind]. cbv zeta. destruct (chk32 _); reflexivity. }
  destruct (has t FInstr).
  - rewrite SV by reflexivity. destruct (TrackModel.slot_value t BK_SEQUENCE_VOLUME) as [value|]; [|discriminate]. cbn [bind]. rewrite !Z.add_0_r, (chk32_ok p), (chk32_ok q) by lia. cbn [bind].
    intros E. destruct (if negb (has t FIgnore) || (value =? 0) then _ else _) as [a|]; [|discriminate]. cbn [bind] in *. rewrite KE in *. apply (G (Ok a) K). exact E.
  - cbn [bind]. rewrite !KE. intros E. apply (G (Ok vv) K). exact E.
Qed.

(** The volumes are exchanged, the rest is the same. *)
Definition mirrored (q : Z) (t t' : track) : Prop := t' = t_panning (t_unit t (set_volume (tr_unit t) (exchange (un_volume (tr_unit t))))) (slot 15 q).

Lemma volume_mirrored t p t1 : -32767 <= p <= 32767 -> length (un_volume (tr_unit t)) = 8%nat -> has t FPan = true -> (has t FInstr = true -> TrackModel.slot_value t BK_SEQUENCE_PANNING = Ok 0) ->
  BKTrackUpdateUnitVolume (t_panning t (slot 15 p)) = Ok t1 -> exists t2, BKTrackUpdateUnitVolume (t_panning t (slot 15 (- p))) = Ok t2 /\ mirrored (- p) t1 t2.
Proof.
  intros P L FP SV. unfold BKTrackUpdateUnitVolume. destruct (track_levels (t_panning t (slot 15 p))) as [(v & r)|] eqn:EL; [|discriminate].
  destruct (levels_panning t p (- p) v r P ltac:(lia) SV EL) as (-> & ->). cbn [bind].
  change (has (t_panning t (slot 15 p)) FPan) with (has t FPan). change (has (t_panning t (slot 15 (- p))) FPan) with (has t FPan). rewrite FP.
  unfold unit_attr, mirrored. change (tr_unit (t_panning t (slot 15 p))) with (tr_unit t). change (tr_unit (t_panning t (slot 15 (- p)))) with (tr_unit t).
  destruct (un_volume (tr_unit t)) as [|v0 [|v1 [|v2 [|v3 [|v4 [|v5 [|v6 [|v7 [|v8 l]]]]]]]]] eqn:EV; cbn [length] in L; try discriminate L.
  destruct (Z.eq_dec p 0) as [->|N].
  { cbn. intros E. injection E as <-. eexists. split; reflexivity. }
  replace (p =? 0) with false by (symmetry; apply Z.eqb_neq; exact N). replace (- p =? 0) with false by (symmetry; apply Z.eqb_neq; lia). cbn [negb andb]. cbv zeta.
  assert (C1 : BKClamp p (- BK_MAX_VOLUME) BK_MAX_VOLUME = p) by (apply clamp_in; unfold BK_MAX_VOLUME; lia).
  assert (C2 : BKClamp (- p) (- BK_MAX_VOLUME) BK_MAX_VOLUME = - p) by (apply clamp_in; unfold BK_MAX_VOLUME; lia).
  rewrite C1, C2. unfold BKUnitSetAttr. cbv zeta. cbn [Z.eqb Pos.eqb BK_VOLUME_0 BK_DUTY_CYCLE BK_WAVEFORM BK_PHASE BK_PHASE_WRAP BK_PERIOD BK_VOLUME]. 
  destruct (Z_lt_le_dec p 0) as [M|M].
  - replace (p >? 0) with false by (symmetry; rewrite Z.gtb_ltb; apply Z.ltb_ge; lia). replace (p <? 0) with true by (symmetry; apply Z.ltb_lt; lia).
    replace (- p >? 0) with true by (symmetry; rewrite Z.gtb_ltb; apply Z.ltb_lt; lia). replace (- p <? 0) with false by (symmetry; apply Z.ltb_ge; lia).
    cbn [bind]. replace (BK_MAX_VOLUME - - p) with (BK_MAX_VOLUME + p) by lia. destruct (chk32 _) as [m|]; [|discriminate]. cbn. rewrite EV. cbn. intros E. injection E as <-. eexists. split; [reflexivity|]. reflexivity.
  - replace (p >? 0) with true by (symmetry; rewrite Z.gtb_ltb; apply Z.ltb_lt; lia). replace (p <? 0) with false by (symmetry; apply Z.ltb_ge; lia).
    replace (- p >? 0) with false by (symmetry; rewrite Z.gtb_ltb; apply Z.ltb_ge; lia). replace (- p <? 0) with true by (symmetry; apply Z.ltb_lt; lia).
    cbn [bind]. replace (BK_MAX_VOLUME + - p) with (BK_MAX_VOLUME - p) by lia. destruct (chk32 _) as [m|]; [|discriminate]. cbn. rewrite EV. cbn. intros E. injection E as <-. eexists. split; [reflexivity|]. reflexivity.
Qed.

Lemma mirrored_same C pan fv V t z s : T C pan fv V (exchange V) t z -> t_panning z s = t_panning (t_unit t (set_volume (tr_unit t) (exchange (un_volume (tr_unit t))))) s.
Proof. intros ((EU & EV & _) & ET & _). rewrite ET, EU, EV. reflexivity. Qed.
Lemma step_mirrored (f : track -> res track) k : (forall t s, f (t_panning t s) = let* t := f t in Ok (t_panning t s)) ->
  (forall C pan V V' t t', T C pan false V V' t t' -> rrel (T C pan false V V') (f t) (f t')) -> k <> FPan -> k <> FVolume ->
  forall q t t', mirrored q t t' -> forall t1, (if has t k then let* t := f t in Ok (put t k false) else Ok t) = Ok t1 ->
  exists t1', (if has t' k then let* t := f t' in Ok (put t k false) else Ok t') = Ok t1' /\ mirrored q t1 t1'.
Proof.
  intros F FT N1 N2 q t t' M t1. unfold mirrored in M.
  set (z := t_unit t (set_volume (tr_unit t) (exchange (un_volume (tr_unit t))))) in M.
  assert (Hz : T (un_ctx (tr_unit t)) (has t FPan) false (un_volume (tr_unit t)) (exchange (un_volume (tr_unit t))) t z).
  { split; [split; [reflexivity|split; reflexivity]|]. split; [reflexivity|]. split; [reflexivity|discriminate]. }
  replace (has t' k) with (has t k) by (rewrite M; reflexivity). destruct (has t k).
  - pose proof (FT _ _ _ _ _ _ Hz) as R. rewrite M, F. destruct (f t) as [x|]; [|discriminate]. destruct (f z) as [x'|]; [|contradiction]. cbn [rrel bind] in *.
    intros E. assert (EQ : t1 = put x k false) by (injection E; intros ->; reflexivity). clear E. subst t1.
    eexists. split; [reflexivity|]. rewrite (mirrored_same _ _ _ _ _ _ (slot 15 q) R). reflexivity.
  - intros E. assert (EQ : t1 = t) by (injection E; intros ->; reflexivity). clear E. subst t1. exists t'. split; [reflexivity|]. exact M.
Qed.

Lemma unit_mirrored t p t1 : -32767 <= p <= 32767 -> length (un_volume (tr_unit t)) = 8%nat -> has t FPan = true -> has t FVolume = true ->
  (has t FInstr = true -> TrackModel.slot_value t BK_SEQUENCE_PANNING = Ok 0) ->
  BKTrackUpdateUnit (t_panning t (slot 15 p)) = Ok t1 -> exists t2, BKTrackUpdateUnit (t_panning t (slot 15 (- p))) = Ok t2 /\ mirrored (- p) t1 t2.
Proof.
  intros P L FP FV SV. unfold BKTrackUpdateUnit. change (has (t_panning t (slot 15 p)) FVolume) with (has t FVolume). change (has (t_panning t (slot 15 (- p))) FVolume) with (has t FVolume).
  rewrite FV. destruct (BKTrackUpdateUnitVolume (t_panning t (slot 15 p))) as [x|] eqn:EX; [|discriminate]. destruct (volume_mirrored t p x P L FP SV EX) as (x' & -> & X).
  cbn [bind]. assert (Y : mirrored (- p) (put x FVolume false) (put x' FVolume false)) by (unfold mirrored in X; rewrite X; reflexivity).
  revert Y. generalize (put x FVolume false) (put x' FVolume false). clear X EX. intros y y' Y.
  destruct (if has y FNote then _ else _) as [z|] eqn:EZ; [|discriminate].
  destruct (step_mirrored BKTrackUpdateUnitNote FNote update_note_panning ltac:(intros; apply T_unit_note; assumption) ltac:(discriminate) ltac:(discriminate) _ _ _ Y _ EZ) as (z' & -> & MZ).
  cbn [bind]. intros E.
  exact (step_mirrored BKTrackUpdateUnitDutyCycle FDuty update_duty_panning ltac:(intros; apply T_unit_duty; assumption) ltac:(discriminate) ltac:(discriminate) _ _ _ MZ _ E).
Qed.

(** A track which is attached to two channels is moved to the side [p] or to the opposite side:
    the unit gets the same volumes, for the other channel.  Nothing else differs. *)
Theorem C125_volumes_partial fuel t p : reachable fuel t -> has t FPan = true -> -32767 <= p <= 32767 ->
  sl_steps (tr_panning t) = 0 -> sl_roundBias (tr_panning t) = 0 -> (has t FInstr = true -> TrackModel.slot_value t BK_SEQUENCE_PANNING = Ok 0) ->
  exists t1 u1 t2 u2, BKTrackSetAttr fuel t BK_PANNING p = Ok (t1, 0) /\ BKTrackUpdateUnit t1 = Ok u1 /\
    BKTrackSetAttr fuel t BK_PANNING (- p) = Ok (t2, 0) /\ BKTrackUpdateUnit t2 = Ok u2 /\
    nth 0 (un_volume (tr_unit u2)) 0 = nth 1 (un_volume (tr_unit u1)) 0 /\ nth 1 (un_volume (tr_unit u2)) 0 = nth 0 (un_volume (tr_unit u1)) 0 /\
    u1 = t_panning (t_unit u2 (set_volume (tr_unit u2) (un_volume (tr_unit u1)))) (tr_panning u1).
Proof.
  intros R FP P S1 S2 SV. assert (H : track_ok fuel t) by (apply reachable_ok; exact R).
  assert (L : length (un_volume (tr_unit t)) = 8%nat) by apply (wf_volume _ (proj1 (proj1 (tk_unit _ _ H)))).
  assert (EM : empty 15 (tr_panning t)) by (split; [exact S1|split; [exact S2|apply (si_sh _ _ (proj1 (tk_panning _ _ H)))]]).
  pose proof (call_panning fuel t p EM P) as A1. pose proof (call_panning fuel t (- p) EM ltac:(lia)) as A2.
  destruct (tstep_ok fuel t (OAttr BK_PANNING p) H) as (x & l & EX & HX).
  { split; [reflexivity|]. split; [apply in_s32_spec; lia|]. split; [intros [Q|Q]; discriminate Q|]. split; [intros [(Q & _)|(Q & _)]; discriminate Q|]. intros [Q|[Q|Q]]; discriminate Q. }
  cbn [tstep] in EX. change (u32 BK_PANNING) with BK_PANNING in EX. rewrite (s32_id p), A1 in EX by lia. cbn [bind] in EX. assert (EQ : x = put (t_panning t (slot 15 p)) FVolume true) by (injection EX; intros _ ->; reflexivity). clear EX. subst x.
  destruct (update_ok fuel _ HX) as (u1 & E2 & H1 & _).
  destruct (unit_mirrored (put t FVolume true) p u1 P L FP eq_refl SV E2) as (u2 & E3 & M).
  eexists _, u1, _, u2. split; [exact A1|]. split; [exact E2|]. split; [exact A2|]. split; [exact E3|].
  assert (L1 : length (un_volume (tr_unit u1)) = 8%nat) by apply (wf_volume _ (proj1 (proj1 (tk_unit _ _ H1)))).
  unfold mirrored in M. clear E2 E3 A1 A2 EM L SV H1 HX. subst u2. destruct u1 as [u]. destruct u. cbn in *. destruct un_volume as [|v0 [|v1 vs]]; [discriminate L1|discriminate L1|].
  split; [reflexivity|]. split; reflexivity.
Qed.

(** ** Sound *)

Definition mirror (x : tone_part) : tone_part := mk_part (pt_id x) (pt_wave x) (pt_duty x) (pt_master x) (pt_volume x) (- pt_panning x) (pt_note x).
(** Where channel [k] is heard. *)
Definition opposite (channels : Z) (k : nat) : nat := if channels =? 2 then (1 - k)%nat else k.

Lemma volumes_mirror n v p k : (k < Z.to_nat n)%nat -> n <= 8 -> nth (opposite n k) (note_volumes n v (- p)) 0 = nth k (note_volumes n v p) 0.
Proof.
  intros K N. unfold note_volumes, opposite. destruct (n =? 2) eqn:E2; [|reflexivity]. apply Z.eqb_eq in E2. subst n.
  cbn [andb]. destruct (Z.eq_dec p 0) as [->|NP]. { destruct k as [|[|k]]; [reflexivity|reflexivity|cbn in K; lia]. }
  replace (p =? 0) with false by (symmetry; apply Z.eqb_neq; exact NP). replace (- p =? 0) with false by (symmetry; apply Z.eqb_neq; lia). cbn [negb].
  assert (G : (p >? 0) = (- p <? 0) /\ (p <? 0) = (- p >? 0)).
  { rewrite !Z.gtb_ltb. split; [destruct (Z.ltb_spec 0 p), (Z.ltb_spec (- p) 0)|destruct (Z.ltb_spec p 0), (Z.ltb_spec 0 (- p))]; lia || reflexivity. }
  destruct G as (-> & ->). replace (32767 - - p) with (32767 + p) by lia. replace (32767 + - p) with (32767 - p) by lia.
  destruct k as [|[|k]]; [reflexivity|reflexivity|cbn in K; lia].
Qed.
Lemma pulses_mirror n rate x k stop : (k < Z.to_nat n)%nat -> n <= 8 -> unit_pulses (part_unit n rate (mirror x)) (opposite n k) stop = unit_pulses (part_unit n rate x) k stop.
Proof.
  intros K N. unfold unit_pulses. assert (EV : vol (part_unit n rate (mirror x)) (opposite n k) = vol (part_unit n rate x) k) by (apply volumes_mirror; assumption).
  assert (EL : lastp (part_unit n rate (mirror x)) (opposite n k) = lastp (part_unit n rate x) k).
  { unfold lastp, part_unit. cbn [un_lastPulse]. rewrite !nth_repeat. reflexivity. }
  rewrite EV, EL. reflexivity.
Qed.
Lemma melody_mirror n rate xs k size : (k < Z.to_nat n)%nat -> n <= 8 -> melody (map (part_unit n rate) (map mirror xs)) (opposite n k) size = melody (map (part_unit n rate) xs) k size.
Proof.
  intros K N. unfold melody. do 2 f_equal. apply map_ext. intros x. unfold units_at. f_equal. rewrite !map_map. apply map_ext. intros y. rewrite pulses_mirror by assumption. reflexivity.
Qed.

(** Notes which are panned to the opposite sides are heard in the opposite channels of two; in
    contexts with another number of channels panning makes no difference. *)
Theorem C125_heard_partial ch rate period fuel e m nn xs ts ts' sizes :
  0 < period <= MAX_CLOCK -> env_still e -> 1789570706 <= Z.of_nat fuel -> 4194304 <= Z.of_nat m -> 1073741824 < Z.of_nat nn ->
  xs <> [] -> NoDup (map pt_id xs) -> Forall part_good xs -> zsum (map pt_master xs) <= 16383 ->
  Forall2 (part_track fuel) xs ts -> Forall2 (part_track fuel) (map mirror xs) ts' ->
  Forall (fun s => 0 <= s < 4294967296) sizes -> zsum sizes <= MAX_FRAMES ->
  let channels := BKClamp (u32 ch) 1 BK_MAX_CHANNELS in
  exists c c' none frames frames',
    xruns m nn e fuel (BKContextInit ch rate period) (chord xs ts ++ map XGenerate sizes) = Ok (c, none ++ frames) /\
    xruns m nn e fuel (BKContextInit ch rate period) (chord (map mirror xs) ts' ++ map XGenerate sizes) = Ok (c', none ++ frames') /\
    length none = length xs /\
    forall k, (k < Z.to_nat channels)%nat -> concat (map (fun f => nth (opposite channels k) f []) frames') = concat (map (fun f => nth k f []) frames).
Proof.
  intros P ES HF HM HN NE ND G L TS TS' SZ MF channels. pose proof (channels_range ch) as NC. fold channels in NC.
  destruct (C113_chord ch rate period fuel e m nn xs ts sizes P ES HF HM HN NE ND G L TS SZ MF) as (c & frames & E & F). fold channels in F.
  assert (NE' : map mirror xs <> []) by (destruct xs; [congruence|discriminate]).
  assert (ND' : NoDup (map pt_id (map mirror xs))) by (rewrite map_map; exact ND).
  assert (G' : Forall part_good (map mirror xs)).
  { apply Forall_map. eapply Forall_impl; [|exact G]. intros x (G1 & G2 & G3 & G4 & G5 & G6). repeat split; cbn; try assumption; lia. }
  assert (L' : zsum (map pt_master (map mirror xs)) <= 16383) by (rewrite map_map; exact L).
  destruct (C113_chord ch rate period fuel e m nn (map mirror xs) ts' sizes P ES HF HM HN NE' ND' G' L' TS' SZ MF) as (c' & frames' & E' & F'). fold channels in F'.
  exists c, c', (map (fun _ => []) xs), frames, frames'. split; [exact E|]. split; [rewrite E', map_map; reflexivity|]. split; [apply map_length|].
  intros k K. assert (KO : (opposite channels k < Z.to_nat channels)%nat).
  { unfold opposite. destruct (Z.eqb_spec channels 2) as [->|_]; [|exact K]. change (Z.to_nat 2) with 2%nat in *. lia. }
  rewrite (F k K), (F' _ KO). apply melody_mirror; [exact K|lia].
Qed.

(** ** Examples *)

(** The track of C124 in the middle of a note with vibrato and arpeggio, to the right and to the left. *)
Definition sides (t : track) (p : Z) : list Z :=
  let r := (let* (t, _) := BKTrackSetAttr 1000 t BK_PANNING p in BKTrackUpdateUnit t) in match r with Ok t => firstn 2 (un_volume (tr_unit t)) | Err _ => [] end.
Example C125_volumes_example : reachable 1000 busy /\ has busy FPan = true /\ sl_steps (tr_panning busy) = 0 /\ sl_roundBias (tr_panning busy) = 0 /\
  has busy FInstr = false /\ sides busy 12345 = [3423; 5493] /\ sides busy (-12345) = [5493; 3423].
Proof. split; [exact busy_reachable|]. vm_compute. repeat split; reflexivity. Qed.

(** The two notes of C113, with the sides exchanged. *)
Lemma two_mirrored fuel : Forall2 (part_track fuel) (map mirror two_parts) (map part_make (map mirror two_parts)).
Proof.
  unfold two_parts. cbn [map mirror pt_id pt_wave pt_duty pt_master pt_volume pt_panning pt_note]. constructor; [|constructor; [|constructor]].
  - exists (part_start (mk_part 3 BK_SQUARE 4 8000 20000 16000 (60 * 1048576))), [[]; []; []; []; []]. split; vm_compute; reflexivity.
  - exists (part_start (mk_part 7 BK_SINE 8 6000 32767 (-16000) (70 * 1048576 + 500000))), [[]; []; []; []; []]. split; vm_compute; reflexivity.
Qed.
Example C125_heard_example : Forall part_good two_parts /\ (forall fuel, Forall2 (part_track fuel) two_parts (map part_make two_parts)) /\
  (forall fuel, Forall2 (part_track fuel) (map mirror two_parts) (map part_make (map mirror two_parts))) /\
  map (fun x => firstn 2 (un_volume (part_unit 2 44100 x))) two_parts = [[4882; 2498]; [3069; 5999]] /\
  map (fun x => firstn 2 (un_volume (part_unit 2 44100 (mirror x)))) two_parts = [[2498; 4882]; [5999; 3069]].
Proof.
  split; [repeat constructor; vm_compute; intuition congruence|]. split; [exact two_tracks|]. split; [exact two_mirrored|].
  vm_compute. repeat split; reflexivity.
Qed.

(** ** Slides *)

(** A slide of the panning which is broken off by a panning without slide. *)
Definition broken_off (a p : Z) : list top :=
  [OAttach 2 44100 0; OAttr BK_MASTER_VOLUME 32767; OAttr BK_VOLUME 32767; OAttr BK_EFFECT_PANNING_SLIDE 30000; OAttr BK_PANNING a; OAttr BK_EFFECT_PANNING_SLIDE 0; OAttr BK_PANNING p; OTick].

(** What a slide to the left has left in the state is added to every panning set later: the
    opposite calls do not give the opposite volumes. *)
Theorem C125_slide_refuted : exists t t', t = track_after BK_SQUARE (broken_off (-1) 100) /\ t' = track_after BK_SQUARE (broken_off 1 (-100)) /\
  reachable 1000 t /\ reachable 1000 t' /\ BKTrackGetAttr t BK_PANNING = Ok (0, Some 100) /\ BKTrackGetAttr t' BK_PANNING = Ok (0, Some (-100)) /\
  firstn 2 (un_volume (tr_unit t)) = [32548; 32766] /\ firstn 2 (un_volume (tr_unit t')) = [32766; 32665].
Proof. do 2 eexists. split; [reflexivity|]. split; [reflexivity|]. split; [fines|]. split; [fines|]. vm_compute. repeat split; reflexivity. Qed.

Print Assumptions C125_volumes_partial.
Print Assumptions C125_volumes_example.
Print Assumptions C125_heard_partial.
Print Assumptions C125_heard_example.
Print Assumptions C125_slide_refuted.
