(** Tracks: attributes, pointers and the life of a track keep the invariant. *)
From Verif Require Import CInt CIntFacts DataModel UnitModel UnitSpec UnitProofs UnitProofs2 UnitInv UnitInv2 UnitInv3 UnitProofs5 UnitCount
  InterpModel InterpProofs IntervalProofs SlideIn ToneModel PropertiesTone SequenceModel SequenceSpec SequenceProofs InstrumentProofs InstrBounds
  TrackModel TrackSpec TrackInv TrackProofs TrackProofs2 TrackProofs3 TrackProofs4.
Ltac Zify.zify_post_hook ::= idtac.

Lemma in_s32_s32 x : in_s32 (s32 x) = true.
Proof. pose proof (s32_range x). unfold in_s32. lia. Qed.
Lemma in_s32_of x : -2147483648 <= x <= 2147483647 -> in_s32 x = true.
Proof. unfold in_s32. lia. Qed.

(** ** Effects *)

Lemma set_interval_ok sh lo hi shi delta steps iv d s n : 0 <= sh <= 28 -> target_ok sh lo -> target_ok sh hi -> 0 <= shi <= 28 ->
  slide_in sh lo hi delta -> slide_in 14 0 65536 steps -> interval_inv shi iv ->
  lo <= d <= hi -> depth_ok shi d -> 0 <= s <= 65536 -> 0 <= n <= 65536 ->
  exists delta' steps' iv', set_interval_effect delta steps iv d s n = Ok (delta', steps', iv') /\
    slide_in sh lo hi delta' /\ slide_in 14 0 65536 steps' /\ interval_inv shi iv' /\
    sl_endValue delta' = d * P sh /\ sl_endValue steps' = s * 16384 /\ sl_steps delta' = n.
Proof.
  intros Hsh Tl Th Hshi Id Is Ii Bd Dd Bs Bn. unfold set_interval_effect.
  destruct (in_set sh lo hi Hsh Tl Th delta d n Id Bd ltac:(lia)) as (d' & -> & Id' & E1 & E2 & _). cbn [bind].
  destruct (in_set 14 0 65536 ltac:(lia) (target14 0 ltac:(lia)) (target14 65536 ltac:(lia)) steps s n Is Bs ltac:(lia)) as (s' & -> & Is' & E3 & _). cbn [bind].
  destruct (n =? 0).
  - destruct (interval_set_inv shi iv d s Ii Hshi Dd ltac:(lia)) as (i & -> & Ii' & _). cbn [bind]. exists d', s', i. rewrite P14 in E3. split; [reflexivity|]. repeat (split; [assumption || lia|]). lia.
  - cbn [bind]. exists d', s', iv. rewrite P14 in E3. split; [reflexivity|]. repeat (split; [assumption || lia|]). lia.
Qed.

Lemma effect_values_ok mem size : 0 <= size -> match mem with Some l => Z.min 3 (size / 4) <= Z.of_nat (length l) | None => True end ->
  exists v, effect_values mem size = Ok v /\ forall i, nth i v 0 = match mem with Some l => if (i <? Z.to_nat (Z.min 3 (size / 4)))%nat then nth i l 0 else 0 | None => 0 end.
Proof.
  intros HS HM. unfold effect_values. destruct mem as [l|].
  - assert (E : BKMin size 12 / 4 = Z.min 3 (size / 4)).
    { unfold BKMin. destruct (Z.ltb_spec size 12) as [L|L].
      - rewrite Z.min_r; [reflexivity|]. apply Z.lt_succ_r. apply Z.div_lt_upper_bound; lia.
      - rewrite Z.min_l; [reflexivity|]. apply Z.div_le_lower_bound; lia. }
    rewrite E. assert (0 <= size / 4) by (apply Z.div_pos; lia). set (n := Z.min 3 (size / 4)) in *. assert (B : 0 <= n <= 3) by lia. clearbody n.
    rewrite copy_ints_ok by (cbn [length]; lia). eexists. split; [reflexivity|]. intros i.
    assert (L : length (firstn (Z.to_nat n) l) = Z.to_nat n) by (rewrite firstn_length; lia).
    destruct (Nat.ltb_spec i (Z.to_nat n)) as [C|C].
    + rewrite app_nth1 by lia. apply nth_firstn_lt. exact C.
    + rewrite app_nth2 by lia. rewrite nth_skipn. assert (K : forall j, nth j [0; 0; 0] 0 = 0) by (intros [|[|[|[|j]]]]; reflexivity). apply K.
  - exists [0; 0; 0]. split; [reflexivity|]. intros [|[|[|[|i]]]]; reflexivity.
Qed.

Lemma effect_flag_cases e k : effect_flag e = Some k ->
  e = BK_EFFECT_VOLUME_SLIDE /\ k = FVolSlide \/ e = BK_EFFECT_PANNING_SLIDE /\ k = FPanSlide \/ e = BK_EFFECT_PORTAMENTO /\ k = FPorta \/
  e = BK_EFFECT_TREMOLO /\ k = FTremolo \/ e = BK_EFFECT_VIBRATO /\ k = FVibrato.
Proof.
  unfold effect_flag. repeat (match goal with |- context [?a =? ?b] => destruct (Z.eqb_spec a b) as [->|_] end); intros E; try discriminate; injection E as <-; tauto.
Qed.

Lemma set_effect_ok fuel t effect mem size : track_ok fuel t -> 0 <= size ->
  match mem with
  | Some l => Z.min 3 (size / 4) <= Z.of_nat (length l) /\ (effect = BK_EFFECT_VIBRATO -> Z.abs (nth 1 l 0) <= MAX_VIBRATO)
  | None => True
  end ->
  exists t' r, BKTrackSetEffect t effect mem size = Ok (t', r) /\ track_ok fuel t'.
Proof.
  intros H HS HM. unfold BKTrackSetEffect.
  destruct (effect_values_ok mem size HS) as (v & -> & Ev). { destruct mem; [apply HM|exact I]. } cbn [bind]. cbv zeta.
  assert (BV : effect = BK_EFFECT_VIBRATO -> Z.abs (nth 1 v 0) <= MAX_VIBRATO).
  { intros EV. rewrite Ev. destruct mem as [l|]; [|unfold MAX_VIBRATO; lia]. destruct (_ <? _)%nat; [apply HM; exact EV|unfold MAX_VIBRATO; lia]. }
  clear HM Ev. set (v0 := nth 0 v 0). set (v1 := nth 1 v 0) in *. set (v2 := nth 2 v 0). clearbody v0 v1 v2.
  pose proof (clamp_range v0 0 BK_TRACK_EFFECT_MAX_STEPS ltac:(discriminate)) as B0. pose proof (clamp_range v2 0 BK_TRACK_EFFECT_MAX_STEPS ltac:(discriminate)) as B2.
  set (n0 := BKClamp v0 _ _) in *. set (n2 := BKClamp v2 _ _) in *. clearbody n0 n2. unfold BK_TRACK_EFFECT_MAX_STEPS in B0, B2.
  destruct (effect_flag effect) as [k|] eqn:EF; [|eauto].
  apply effect_flag_cases in EF. destruct EF as [(-> & ->)|[(-> & ->)|[(-> & ->)|[(-> & ->)|(-> & ->)]]]].
  - destruct (in_steps 15 0 32767 ltac:(lia) (target15 0 ltac:(lia)) (target15 32767 ltac:(lia)) (tr_volume t) n0 (tk_volume _ _ H) ltac:(lia)) as (s & -> & I & _). cbn [bind].
    eexists _, _. split; [reflexivity|]. apply ok_put; [|discriminate]. apply ok_put; [|discriminate]. apply ok_volume; assumption.
  - destruct (in_steps 15 (-32767) 32767 ltac:(lia) (target15 (-32767) ltac:(lia)) (target15 32767 ltac:(lia)) (tr_panning t) n0 (tk_panning _ _ H) ltac:(lia)) as (s & -> & I & _). cbn [bind].
    eexists _, _. split; [reflexivity|]. apply ok_put; [|discriminate]. apply ok_put; [|discriminate]. apply ok_panning; assumption.
  - destruct (in_steps 0 0 MAX_NOTE ltac:(lia) (target0 0 ltac:(lia)) (target0 MAX_NOTE ltac:(unfold MAX_NOTE; lia)) (tr_note t) n0 (tk_note _ _ H) ltac:(lia)) as (s & -> & I & _). cbn [bind].
    eexists _, _. split; [reflexivity|]. apply ok_put; [|discriminate]. apply ok_put; [|discriminate]. apply ok_note; assumption.
  - pose proof (clamp_range v1 0 BK_MAX_VOLUME ltac:(discriminate)) as B1. set (d := BKClamp v1 _ _) in *. clearbody d. unfold BK_MAX_VOLUME in B1.
    destruct (set_interval_ok 15 0 32767 14 (tr_tremoloDelta t) (tr_tremoloSteps t) (tr_tremolo t) d n0 n2 ltac:(lia) (target15 0 ltac:(lia)) (target15 32767 ltac:(lia)) ltac:(lia) (tk_tremoloDelta _ _ H) (tk_tremoloSteps _ _ H) (tk_tremolo _ _ H) B1 (depth14 d ltac:(lia)) B0 B2) as (d' & s' & i' & -> & Id & Is & Ii & _). cbn [bind].
    eexists _, _. split; [reflexivity|]. apply ok_put; [|discriminate]. apply ok_put; [|discriminate]. apply ok_tremolo; [|exact Ii]. apply ok_tremoloSteps; [|exact Is]. apply ok_tremoloDelta; assumption.
  - specialize (BV eq_refl). unfold MAX_VIBRATO in BV.
    destruct (set_interval_ok 0 (- MAX_VIBRATO) MAX_VIBRATO 0 (tr_vibratoDelta t) (tr_vibratoSteps t) (tr_vibrato t) v1 n0 n2 ltac:(lia) (target0 (- MAX_VIBRATO) ltac:(unfold MAX_VIBRATO; lia)) (target0 MAX_VIBRATO ltac:(unfold MAX_VIBRATO; lia)) ltac:(lia) (tk_vibratoDelta _ _ H) (tk_vibratoSteps _ _ H) (tk_vibrato _ _ H) ltac:(unfold MAX_VIBRATO; lia) (depth0 v1 ltac:(lia)) B0 B2) as (d' & s' & i' & -> & Id & Is & Ii & _). cbn [bind].
    eexists _, _. split; [reflexivity|]. apply ok_put; [|discriminate]. apply ok_put; [|discriminate]. apply ok_vibrato; [|exact Ii]. apply ok_vibratoSteps; [|exact Is]. apply ok_vibratoDelta; assumption.
Qed.

(** ** Attributes *)

Lemma pitch_clamp v : Z.abs (clamp_pitch v) <= MAX_PITCH.
Proof. pose proof (clamp_range v (-50331648) 50331648 ltac:(lia)). change (clamp_pitch v) with (BKClamp v (-50331648) 50331648). unfold MAX_PITCH. lia. Qed.

Lemma duty_of_unit fuel t : track_ok fuel t -> 0 <= s32 (un_duty (tr_unit t)) <= 15.
Proof. intros H. destruct (tk_unit _ _ H) as ((W & _) & _). pose proof (wf_duty _ W). rewrite s32_id by lia. lia. Qed.

Lemma attr_ok fuel t attr value : track_ok fuel t -> in_s32 value = true ->
  (attr = BK_PERIOD \/ attr = BK_SAMPLE_PERIOD -> value <> -2147483648) ->
  (attr = BK_FLAG_RELEASE /\ value <> 0 \/ attr = BK_NOTE /\ value = BK_NOTE_RELEASE -> release_ok (tr_unit t)) ->
  (attr = BK_ARPEGGIO_DIVIDER \/ attr = BK_EFFECT_DIVIDER \/ attr = BK_INSTRUMENT_DIVIDER -> 1 <= value) ->
  exists t' r, BKTrackSetAttr fuel t attr value = Ok (t', r) /\ track_ok fuel t'.
Proof.
  intros H HV HP HR HD. apply in_s32_range in HV. unfold BKTrackSetAttr. cbv zeta.
  destruct (Z.eqb_spec attr BK_MASTER_VOLUME) as [_|_].
  { eexists _, _. split; [reflexivity|]. apply ok_put; [|discriminate]. apply ok_master; [exact H|]. apply (clamp_range value 0 32767). lia. }
  destruct (Z.eqb_spec attr BK_VOLUME) as [_|_].
  { unfold BKTrackSetVolume. destruct (in_value 15 0 32767 ltac:(lia) (target15 0 ltac:(lia)) (target15 32767 ltac:(lia)) (tr_volume t) (BKClamp value 0 BK_MAX_VOLUME) (tk_volume _ _ H)) as (s & -> & I & _).
    { apply (clamp_range value 0 32767). lia. } cbn [bind]. eexists _, _. split; [reflexivity|]. apply ok_put; [|discriminate]. apply ok_volume; assumption. }
  destruct (Z.eqb_spec attr BK_PANNING) as [_|_].
  { unfold BKTrackSetPanning. destruct (in_value 15 (-32767) 32767 ltac:(lia) (target15 (-32767) ltac:(lia)) (target15 32767 ltac:(lia)) (tr_panning t) (BKClamp value (- BK_MAX_VOLUME) BK_MAX_VOLUME) (tk_panning _ _ H)) as (s & -> & I & _).
    { apply (clamp_range value (-32767) 32767). lia. } cbn [bind]. eexists _, _. split; [reflexivity|]. apply ok_put; [|discriminate]. apply ok_panning; assumption. }
  destruct (Z.eqb_spec attr BK_WAVEFORM) as [_|_].
  { destruct (plain_attr_ok fuel t BK_WAVEFORM value H ltac:(lia) ltac:(discriminate) ltac:(discriminate) ltac:(discriminate)) as (u & r & -> & _ & H1). cbn [bind].
    destruct (r =? 0); [|eauto].
    assert (H2 : track_ok fuel (BKTrackUpdateIgnoreVolume (t_waveform (t_unit t u) (s32 (un_waveform u))))).
    { apply ignore_ok, ok_waveform; [exact H1|apply in_s32_s32]. }
    destruct (note_ok fuel _ H2) as (u' & -> & H3). cbn [bind]. eauto. }
  destruct (Z.eqb_spec attr BK_DUTY_CYCLE) as [_|_].
  { destruct (plain_attr_ok fuel t BK_DUTY_CYCLE value H ltac:(lia) ltac:(discriminate) ltac:(discriminate) ltac:(discriminate)) as (u & r & -> & _ & H1). cbn [bind].
    eexists _, _. split; [reflexivity|]. apply ok_put; [|discriminate]. destruct (r =? 0); [|exact H1]. apply ok_duty; [exact H1|]. exact (duty_of_unit fuel _ H1). }
  destruct (Z.eqb_spec attr BK_NOTE) as [EN|_].
  { destruct (set_note_ok fuel t value H) as (t' & -> & H'). { intros ER. apply HR. auto. } cbn [bind]. eauto. }
  destruct (Z.eqb_spec attr BK_PITCH) as [_|_]. { eexists _, _. split; [reflexivity|]. apply ok_pitch; [exact H|apply pitch_clamp]. }
  destruct (Z.eqb_spec attr BK_SAMPLE_PITCH) as [_|_]. { eexists _, _. split; [reflexivity|]. apply ok_samplePitch; [exact H|apply pitch_clamp]. }
  assert (DV : 1 <= value -> div_ok (mk_dstate value 0)) by (intros; split; cbn; lia).
  destruct (Z.eqb_spec attr BK_ARPEGGIO_DIVIDER) as [E|_]. { eexists _, _. split; [reflexivity|]. apply ok_arpDiv; [exact H|]. apply DV, HD. auto. }
  destruct (Z.eqb_spec attr BK_EFFECT_DIVIDER) as [E|_]. { eexists _, _. split; [reflexivity|]. apply ok_effDiv; [exact H|]. apply DV, HD. auto. }
  destruct (Z.eqb_spec attr BK_INSTRUMENT_DIVIDER) as [E|_]. { eexists _, _. split; [reflexivity|]. apply ok_instrDiv; [exact H|]. apply DV, HD. auto. }
  destruct (Z.eqb_spec attr BK_TRIANGLE_IGNORES_VOLUME) as [_|_]. { eexists _, _. split; [reflexivity|]. apply ignore_ok. apply ok_put; [exact H|discriminate]. }
  destruct ((attr =? BK_EFFECT_VOLUME_SLIDE) || (attr =? BK_EFFECT_PANNING_SLIDE) || (attr =? BK_EFFECT_PORTAMENTO)) eqn:EE.
  { apply set_effect_ok; [exact H|lia|]. split; [cbn; lia|]. intros ->. discriminate EE. }
  destruct (unit_attr_ok fuel t attr value H HV HP) as (u & r & -> & _ & H1). { intros E1 E2. apply HR. auto. } cbn [bind]. eauto.
Qed.

(** ** Pointers *)

Lemma set_data_ok fuel t attr data : track_ok fuel t -> attr = BK_WAVEFORM \/ attr = BK_SAMPLE ->
  match data with Some (_, d, pitch) => wdata_ok d /\ Z.abs pitch <= MAX_PITCH | None => True end ->
  exists t' r, track_set_data t attr data = Ok (t', r) /\ track_ok fuel t'.
Proof.
  intros H HA HD. unfold track_set_data. cbv zeta.
  match goal with |- exists t' r, bind ?X _ = _ /\ _ => assert (K : exists t1 r1, X = Ok (t1, r1) /\ track_ok fuel t1) end.
  { destruct (_ || _); [|eauto]. destruct (tk_unit _ _ H) as (US & UC).
    destruct (ptr_safe (tr_unit t) attr (match data with Some (_, d, _) => PData d | None => PNull end) US) as (u & r & E & U1).
    { split; [destruct HA as [-> | ->]; reflexivity|]. split; [destruct HA; auto|]. destruct data as [[[? d] ?]|]; [split; [exact HA|apply HD]|exact I]. }
    { destruct data as [[[? d] ?]|]; exact I. }
    rewrite E. cbn [bind]. eexists _, _. split; [reflexivity|].
    assert (H1 : track_ok fuel (t_unit t u)) by (apply ok_unit; [exact H|]; split; [exact U1|apply (ptr_counted _ _ _ _ _ E UC)]).
    destruct data as [[[? d] ?]|]; [|exact H1]. destruct (r =? 0); [apply ok_dataId|]; exact H1. }
  destruct K as (t1 & r1 & -> & H1). cbn [bind]. destruct (negb _); [eauto|].
  match goal with |- exists t' r, bind (BKTrackUpdateUnitNote ?T) _ = _ /\ _ => assert (H2 : track_ok fuel T) end.
  { apply ok_samplePitch; [apply ignore_ok, ok_waveform; [exact H1|apply in_s32_s32]|].
    destruct data as [[[? d] p]|]; [|unfold MAX_PITCH; cbn; lia]. destruct (sm_data _); [apply HD|unfold MAX_PITCH; cbn; lia]. }
  destruct (note_ok fuel _ H2) as (u & -> & H3). cbn [bind]. eauto.
Qed.

Lemma set_ptr_ok fuel t attr ptr size : track_ok fuel t -> top_ok fuel t (OPtr attr ptr size) ->
  exists t' r, BKTrackSetPtr fuel t attr ptr size = Ok (t', r) /\ track_ok fuel t'.
Proof.
  intros H (HU & HS & HP). unfold BKTrackSetPtr.
  destruct (Z.eqb_spec (attr_type attr) BK_EFFECT_TYPE) as [ET|NT].
  { destruct ptr as [|id d p|id sqs|mem|p].
    - apply set_effect_ok; auto.
    - destruct HP as ([-> | ->] & _); discriminate ET.
    - destruct HP as (-> & _); discriminate ET.
    - apply set_effect_ok; [exact H|exact HS|]. destruct HP as [(_ & L & _ & V)|(-> & _)]; [auto|discriminate ET].
    - destruct HP as (N & _). congruence. }
  destruct ((attr =? BK_WAVEFORM) || (attr =? BK_SAMPLE)) eqn:EW.
  { assert (HA : attr = BK_WAVEFORM \/ attr = BK_SAMPLE) by (apply orb_prop in EW; destruct EW as [E|E]; apply Z.eqb_eq in E; auto).
    destruct ptr as [|id d p|id sqs|mem|p].
    - apply set_data_ok; auto.
    - apply set_data_ok; [exact H|exact HA|]. apply HP.
    - destruct HP as (-> & _); destruct HA; discriminate.
    - destruct HP as [(E & _)|(-> & _)]; [congruence|destruct HA; discriminate].
    - destruct HP as (_ & N1 & N2 & _). destruct HA; congruence. }
  apply orb_false_iff in EW. destruct EW as (EW1 & EW2). apply Z.eqb_neq in EW1, EW2.
  destruct (Z.eqb_spec attr BK_INSTRUMENT) as [EI|NI].
  { destruct ptr as [|id d p|id sqs|mem|p].
    - destruct (set_instr_ok fuel t None H I) as (t' & -> & H'). cbn [bind]. eauto.
    - destruct HP as ([?|?] & _); congruence.
    - destruct HP as (_ & HQ). destruct (set_instr_ok fuel t (Some (id, BKInstrumentUpdateNumSequences sqs)) H) as (t' & -> & H'); [exists sqs; auto|]. cbn [bind]. eauto.
    - destruct HP as [(E & _)|(E & _)]; [congruence|rewrite EI in E; discriminate E].
    - destruct HP as (_ & _ & _ & N & _). congruence. }
  destruct (Z.eqb_spec attr BK_ARPEGGIO) as [EA|NA].
  { destruct ptr as [|id d p|id sqs|mem|p].
    - cbn [bind]. destruct (notes_ok fuel t (tl []) 0 H ltac:(lia) ltac:(cbn; lia)) as (t' & -> & H' & _); [constructor|]. cbn [bind]. eauto.
    - destruct HP as ([?|?] & _); congruence.
    - destruct HP as (? & _); congruence.
    - destruct HP as [(E & _)|(_ & HP)]; [congruence|].
      destruct (Z.eqb_spec size 0) as [ES|NS].
      + cbn [bind]. destruct (notes_ok fuel t (tl mem) 0 H ltac:(lia) ltac:(lia)) as (t' & -> & H' & _); [constructor|]. cbn [bind]. eauto.
      + destruct HP as [C|(n & notes & -> & Hn & HL & HF)]; [congruence|]. change (aget (n :: notes) 0) with (Ok n). cbn [bind tl].
        assert (EB : BKMin n BK_MAX_ARPEGGIO = Z.min 8 n) by (unfold BKMin, BK_MAX_ARPEGGIO; destruct (Z.ltb_spec n 8); lia).
        rewrite EB, u32_id, s32_id by lia.
        destruct (notes_ok fuel t notes (Z.min 8 n) H ltac:(lia) HL) as (t' & -> & H' & _).
        { rewrite <- (firstn_skipn (Z.to_nat (Z.min 8 n))) in HF. apply Forall_app in HF. apply HF. }
        cbn [bind]. eauto.
    - destruct HP as (_ & _ & _ & _ & N & _). congruence. }
  destruct ptr as [|id d p|id sqs|mem|p].
  - cbn [bind]. destruct (tk_unit _ _ H) as (US & UC). destruct (ptr_safe (tr_unit t) attr PNull US) as (u & r & E & U1).
    { split; [exact HU|]. split; [auto|exact I]. } { exact I. }
    rewrite E. cbn [bind]. eexists _, _. split; [reflexivity|]. apply ok_unit; [exact H|]. split; [exact U1|apply (ptr_counted _ _ _ _ _ E UC)].
  - destruct HP as ([?|?] & _); congruence.
  - destruct HP as (? & _); congruence.
  - destruct HP as [(? & _)|(? & _)]; congruence.
  - destruct HP as (_ & _ & _ & _ & _ & HO & HC). cbn [bind]. destruct (tk_unit _ _ H) as (US & UC). destruct (ptr_safe (tr_unit t) attr p US HO HC) as (u & r & E & U1).
    rewrite E. cbn [bind]. eexists _, _. split; [reflexivity|]. apply ok_unit; [exact H|]. split; [exact U1|apply (ptr_counted _ _ _ _ _ E UC)].
Qed.
