(** Calls on tracks and ticks keep waveforms waveforms, and volumes below a limit. *)
From Verif Require Import CInt CIntFacts DataModel UnitModel UnitSpec UnitProofs5 InterpModel ToneModel SequenceModel TrackModel TrackSpec TrackProofs TrackVolume TrackTime SafeSpec.
Ltac Zify.zify_post_hook ::= idtac.

(** ** Tracks *)

(** A unit which plays a waveform, with volumes and levels of at most [vol]. *)
Definition quiet_unit (vol : Z) (u : bkunit) : Prop :=
  un_waveform u <> BK_SAMPLE /\ un_sustain u = false /\ sm_numChannels (un_sample u) <= 1 /\
  Forall (fun v => v <= vol) (un_volume u) /\ Forall (fun p => - vol <= p <= vol) (un_lastPulse u).

Definition quiet_track (vol : Z) (t : track) : Prop := quiet_unit vol (tr_unit t) /\ 0 <= tr_master t <= vol.

(** A track to be attached. *)
Definition calm_track (fuel : nat) (vol : Z) (t : track) : Prop :=
  track_ok fuel t /\ un_ctx (tr_unit t) = None /\ quiet_track vol t.

Section Quiet.
Variable V : Z.
Hypothesis V0 : 0 <= V.
Variable ctx : option Z.
Variable lp : list Z.

Definition Qu (u : bkunit) : Prop := quiet_unit V u /\ un_ctx u = ctx /\ un_lastPulse u = lp.
Definition Qt (t : track) : Prop := Qu (tr_unit t) /\ 0 <= tr_master t <= V.
Definition Qup {A} (p : bkunit * A) : Prop := Qu (fst p).
Definition Qtp {A} (p : track * A) : Prop := Qt (fst p).

Ltac pairs := repeat match goal with y : (_ * _)%type |- _ => destruct y end.
(** The unit was replaced, or anything but the unit and the master volume. *)
Ltac qt := match goal with
  | |- Qu _ => match goal with H : Qu _ |- _ => exact H | H : Qt _ |- _ => exact (proj1 H) end
  | |- Qt _ => match goal with
    | H : Qt _ |- _ => exact H
    | H : Qt _, U : Qu _ |- _ => exact (conj U (proj2 H))
    end
  end.
Ltac known := fail.
Ltac keep1 :=
  cbv beta zeta;
  first
  [ match goal with |- holds _ (Err _) => exact I end
  | known
  | match goal with
    | |- holds Qt (Ok ?x) => change (Qt x); solve [qt]
    | |- holds Qtp (Ok (?x, ?y)) => change (Qt x); solve [qt]
    | H : Qu _ |- holds Qu (Ok _) => exact H
    | H : Qu _ |- holds Qup (Ok _) => exact H
    | |- holds _ (if ?c then _ else _) => destruct c
    | |- holds _ (@bind ?A _ _ _) =>
        lazymatch A with
        | track => apply (holds_bind Qt); [|let y := fresh "t" in let H := fresh "H" in intros y H]
        | (track * _)%type => apply (holds_bind Qtp); [|let y := fresh "t" in let r := fresh "r" in let H := fresh "H" in intros [y r] H; unfold Qtp in H; cbn [fst] in H]
        | bkunit => apply (holds_bind Qu); [|let y := fresh "u" in let H := fresh "H" in intros y H]
        | (bkunit * _)%type => apply (holds_bind Qup); [|let y := fresh "u" in let r := fresh "r" in let H := fresh "H" in intros [y r] H; unfold Qup in H; cbn [fst] in H]
        | _ => apply holds_any; let y := fresh "y" in intros y; repeat match goal with z : (_ * _)%type |- _ => destruct z end
        end
    | |- holds _ (match ?c with _ => _ end) => destruct c
    | |- holds _ (Ok ?x) => match x with context [match ?c with _ => _ end] => destruct c end
    end ].
Ltac keep := repeat keep1.

Lemma try_data_quiet u d ty di : Qu u -> ty <> BK_SAMPLE \/ d = None -> holds Qup (BKUnitTrySetData u d ty di).
Proof.
  intros H T. unfold BKUnitTrySetData. destruct (un_ctx u); [|exact H]. cbv zeta.
  assert (C : quiet_unit V (set_waveform u BK_CUSTOM) /\ un_ctx (set_waveform u BK_CUSTOM) = ctx /\ un_lastPulse (set_waveform u BK_CUSTOM) = lp).
  { destruct H as ((H1 & H) & E). split; [|exact E]. split; [discriminate|exact H]. }
  assert (D : quiet_unit V (set_waveform u 0) /\ un_ctx (set_waveform u 0) = ctx /\ un_lastPulse (set_waveform u 0) = lp).
  { destruct H as ((H1 & H) & E). split; [|exact E]. split; [discriminate|exact H]. }
  destruct (Z.eqb_spec ty BK_WAVEFORM).
  - destruct (if di then None else d); [destruct (_ >=? 2); [exact C|exact H]|]. destruct (un_waveform u =? BK_CUSTOM); [exact D|exact H].
  - destruct (Z.eqb_spec ty BK_SAMPLE) as [->|]; [|exact H]. destruct T as [T| ->]; [congruence|].
    replace (if di then None else None) with (@None wdata) by (destruct di; reflexivity).
    destruct (Z.eqb_spec (un_waveform u) BK_SAMPLE) as [E|]; [destruct H as ((H1 & _) & _); congruence|exact H].
Qed.
Lemma no_wave u : Qu u -> Qu (set_waveform u 0).
Proof. intros ((H1 & H) & E). split; [|exact E]. split; [discriminate|exact H]. Qed.

Lemma set_data_quiet u ty d : Qu u -> ty <> BK_SAMPLE \/ d = None -> holds Qup (BKUnitSetData u ty d).
Proof.
  intros H T. unfold BKUnitSetData. apply (holds_bind Qup); [apply try_data_quiet; assumption|]. intros [u1 r] U. unfold Qup in U. cbn [fst] in U.
  destruct (r =? 0); [exact U|]. destruct (_ || _); [apply no_wave|]; exact U.
Qed.
Lemma data_callback_quiet u di : Qu u -> holds Qup (BKUnitSampleDataStateCallback di u).
Proof.
  intros H. unfold BKUnitSampleDataStateCallback. destruct (un_waveform u =? BK_CUSTOM).
  - apply try_data_quiet; [exact H|]. left. discriminate.
  - destruct (Z.eqb_spec (un_waveform u) BK_SAMPLE) as [E|]; [|exact H]. destruct H as ((H1 & _) & _). congruence.
Qed.

Lemma clamp_le v : v <= V -> BKClamp v 0 BK_MAX_VOLUME <= V.
Proof. intros H. unfold BKClamp, BK_MAX_VOLUME. destruct (v <? 0); [lia|]. destruct (Z.gtb_spec v 32767); lia. Qed.
Lemma upd_le l n v : Forall (fun v => v <= V) l -> v <= V -> Forall (fun v => v <= V) (upd l n v).
Proof. intros F L. revert n. induction F as [|x l H F IH]; intros [|n]; cbn [upd]; constructor; auto. Qed.

(** Volumes of channels. *)
Definition loud (a : Z) : Prop := a = BK_VOLUME \/ BK_VOLUME_0 <= a <= BK_VOLUME_7.
Lemma set_attr_quiet u a v : Qu u -> (loud a -> v <= V) -> holds Qup (BKUnitSetAttr u a v).
Proof.
  intros H W. unfold BKUnitSetAttr. cbv zeta.
  destruct (a =? BK_DUTY_CYCLE); [keep; unfold holds, Qup, Qu; cbn [fst]; destruct (_ && _); exact H|].
  destruct (a =? BK_WAVEFORM).
  { destruct (waveform_phases v) as [p|] eqn:P; [|exact H]. destruct (negb _); [|exact H]. destruct H as ((H1 & H) & E). split; [|exact E].
    split; [|exact H]. change (v <> BK_SAMPLE). intros ->. discriminate P. }
  destruct (a =? BK_PHASE); [destruct (negb _); exact H|].
  destruct (a =? BK_PHASE_WRAP); [exact H|].
  destruct (a =? BK_PERIOD); [keep|].
  destruct (Z.eqb_spec a BK_VOLUME) as [EV|].
  { destruct H as ((H1 & H2 & H3 & H4 & H5) & E). split; [|exact E]. split; [exact H1|]. split; [exact H2|]. split; [exact H3|]. split; [|exact H5].
    change (un_volume _) with (repeat (BKClamp v 0 BK_MAX_VOLUME) (Z.to_nat BK_MAX_CHANNELS)). apply Forall_forall. intros x X. apply repeat_spec in X. subst x.
    apply clamp_le. apply W. left. exact EV. }
  destruct ((BK_VOLUME_0 <=? a) && (a <=? BK_VOLUME_7)) eqn:R.
  { destruct (aset _ _ _) as [l|] eqn:A; [|exact I]. cbn [bind holds].
    destruct H as ((H1 & H2 & H3 & H4 & H5) & E). split; [|exact E]. split; [exact H1|]. split; [exact H2|]. split; [exact H3|]. split; [|exact H5].
    change (Forall (fun v => v <= V) l). unfold aset in A. match type of A with (if ?c then _ else _) = _ => destruct c; [|discriminate A] end. assert (l = upd (un_volume u) (Z.to_nat (a - BK_VOLUME_0)) (BKClamp v 0 BK_MAX_VOLUME)) as -> by congruence. apply upd_le; [exact H4|]. apply clamp_le. apply W. right. lia. }
  destruct (a =? BK_MUTE); [exact H|]. destruct (a =? BK_SAMPLE_REPEAT); [exact H|]. destruct (a =? BK_SAMPLE_PERIOD); [keep|].
  destruct (a =? BK_SAMPLE_IMMED_RELEASE); [exact H|]. destruct (a =? BK_FLAG_RELEASE); [|exact H].
  replace (un_sustain u) with false; [exact H|]. symmetry. apply H.
Qed.

Lemma set_ptr_quiet u a p : Qu u -> a <> BK_SAMPLE \/ p = PNull -> holds Qup (BKUnitSetPtr u a p).
Proof.
  intros H T. unfold BKUnitSetPtr. destruct (a =? BK_SAMPLE_CALLBACK); [keep|]. destruct (_ || _).
  - destruct (match p with PNull => _ | _ => _ end) as [d|] eqn:D; [|exact I]. cbn [bind]. apply (holds_bind Qup).
    + apply set_data_quiet; [exact H|]. destruct T as [T| ->]; [left; exact T|right; congruence].
    + intros [u1 r] U. destruct (r <? 0); exact U.
  - assert (S : un_waveform u =? BK_SAMPLE = false) by (apply Z.eqb_neq; apply H). rewrite S. cbn [negb].
    destruct (a =? BK_SAMPLE_RANGE); [exact H|]. destruct (a =? BK_SAMPLE_SUSTAIN_RANGE); exact H.
Qed.
Lemma clear_quiet u : Qu u -> holds Qu (BKUnitClear u).
Proof.
  intros H. unfold BKUnitClear. apply (holds_bind Qup); [apply set_data_quiet; [exact H|right; reflexivity]|]. intros [u1 r1] H1.
  apply (holds_bind Qup); [apply set_data_quiet; [exact H1|right; reflexivity]|]. intros [u2 r2] H2. cbv zeta. unfold holds.
  destruct H2 as ((A & B & C) & D). split; [|exact D]. split; [exact A|]. split; [reflexivity|]. destruct (_ >? _); exact C.
Qed.

Lemma unit_attr_quiet t a v : Qt t -> (loud a -> v <= V) -> holds Qt (unit_attr t a v).
Proof.
  intros H W. unfold unit_attr. apply (holds_bind Qup); [apply set_attr_quiet; [exact (proj1 H)|exact W]|]. intros [u r] K. exact (conj K (proj2 H)).
Qed.

Ltac sub := qt.
Ltac soft := let L := fresh in let M := fresh in intros [L|[L M]]; exfalso; first [discriminate L|apply L; reflexivity|apply M; reflexivity].
Ltac known ::= first [simple apply unit_attr_quiet; [sub|soft]].

Lemma shr_le v m : 0 <= v <= 32767 -> 0 <= m -> 0 <= Z.shiftr (v * m) BK_VOLUME_SHIFT <= m.
Proof.
  intros H M. unfold BK_VOLUME_SHIFT. rewrite Z.shiftr_div_pow2 by lia. change (2 ^ 15) with 32768. split; [apply Z.div_pos; nia|].
  apply Z.div_le_upper_bound; nia.
Qed.

Lemma levels_quiet t v p : Qt t -> track_levels t = Ok (v, p) -> 0 <= v <= V.
Proof.
  intros [_ M] E. unfold track_levels in E. do 4 (apply bind_inv in E; destruct E as (? & _ & E); pairs). apply bind_inv in E. destruct E as (m & C & E).
  apply chk_val in C. subst m. match type of E with Ok (?a, _) = _ => assert (v = a) as -> by congruence end. clear E.
  match goal with |- context [BKClamp ?x] => set (q := BKClamp x 0 BK_MAX_VOLUME);
    assert (Q : 0 <= q <= 32767) by (unfold q, BKClamp, BK_MAX_VOLUME; destruct (Z.ltb_spec x 0); [lia|]; destruct (Z.gtb_spec x 32767); lia) end.
  pose proof (shr_le q (tr_master t) Q). lia.
Qed.
Lemma volume_quiet t : Qt t -> holds Qt (BKTrackUpdateUnitVolume t).
Proof.
  intros H. unfold BKTrackUpdateUnitVolume. destruct (track_levels t) as [[v p]|] eqn:E; [|exact I]. cbn [bind]. pose proof (levels_quiet _ _ _ H E) as B.
  destruct (_ && _); [|apply unit_attr_quiet; [exact H|lia]]. cbv zeta. set (q := BKClamp p _ _).
  assert (Q : -32767 <= q <= 32767) by (unfold q, BKClamp, BK_MAX_VOLUME; destruct (Z.ltb_spec p (- (32767))); [lia|]; destruct (Z.gtb_spec p 32767); lia).
  clearbody q. clear E.
  assert (L : forall (c : bool) x, (c = true -> 0 <= x <= 32767) ->
    holds (fun w => w <= V) (if c then let* m := chk32 (x * v) in Ok (Z.shiftr m BK_VOLUME_SHIFT) else Ok v)).
  { intros [] x X; [|cbn; lia]. specialize (X eq_refl). destruct (chk32 (x * v)) as [m|] eqn:C; [|exact I]. apply chk_val in C. subst m. cbn [bind holds].
    pose proof (shr_le x v X). lia. }
  apply (holds_bind (fun w => w <= V)); [apply L; unfold BK_MAX_VOLUME; lia|]. intros w0 W0.
  apply (holds_bind (fun w => w <= V)); [apply L; unfold BK_MAX_VOLUME; lia|]. intros w1 W1.
  apply (holds_bind Qt); [apply unit_attr_quiet; [exact H|auto]|]. intros y Y. apply unit_attr_quiet; [exact Y|auto].
Qed.
Lemma note_quiet t : Qt t -> holds Qt (BKTrackUpdateUnitNote t).
Proof. intros H. unfold BKTrackUpdateUnitNote. keep. Qed.
Lemma duty_quiet t : Qt t -> holds Qt (BKTrackUpdateUnitDutyCycle t).
Proof. intros H. unfold BKTrackUpdateUnitDutyCycle. keep. Qed.

Ltac known ::= first [simple apply unit_attr_quiet; [sub|soft] | simple apply volume_quiet; sub | simple apply note_quiet; sub | simple apply duty_quiet; sub].

Lemma update_quiet t : Qt t -> holds Qt (BKTrackUpdateUnit t).
Proof. intros H. unfold BKTrackUpdateUnit. keep. Qed.
Lemma arp_notes_quiet t l n : Qt t -> holds Qt (BKTrackArpeggioSetNotes t l n).
Proof. intros H. unfold BKTrackArpeggioSetNotes. keep. Qed.
Lemma arp_tick_quiet t : Qt t -> holds Qt (BKTrackArpeggioTick t).
Proof. intros H. unfold BKTrackArpeggioTick. keep. Qed.

Lemma iflags_quiet t f : Qt t -> Qt (BKTrackInstrumentUpdateFlags t f).
Proof.
  intros H. unfold BKTrackInstrumentUpdateFlags. destruct f; [exact H|]. cbv zeta.
  assert (K : forall (c : bool) s k b, Qt s -> Qt (if c then put s k b else s)) by (intros []; auto).
  repeat apply K. exact H.
Qed.
Lemma eflags_quiet t : Qt t -> Qt (BKTrackEffectUpdateFlags t).
Proof.
  intros H. unfold BKTrackEffectUpdateFlags. cbv zeta.
  assert (K : forall (c : bool) s k b, Qt s -> Qt (if c then put s k b else s)) by (intros []; auto).
  repeat apply K. exact H.
Qed.

Lemma plain_quiet fuel t p : Qt t -> holds Qtp (set_phase_plain fuel t p).
Proof. intros H. unfold set_phase_plain. keep. Qed.

Lemma set_mute_quiet f t : Qt t -> (forall t p, Qt t -> holds Qt (f t p)) -> holds Qt (set_note_mute f t).
Proof.
  intros H F. unfold set_note_mute. cbv zeta. apply (holds_bind Qt).
  { keep1; [|exact H]. apply (holds_bind Qt); [apply F; exact H|]. intros y Y. apply iflags_quiet. exact Y. }
  intros y Y. keep.
Qed.

Ltac known ::= first [simple apply plain_quiet; sub | match goal with |- holds Qt (Ok (BKTrackInstrumentUpdateFlags _ _)) => apply iflags_quiet; sub end].
Lemma inner_quiet fuel t p : Qt t -> holds Qt (set_phase_inner fuel t p).
Proof. intros H. unfold set_phase_inner. keep. Qed.
Lemma mute_event_quiet fuel t : Qt t -> holds Qt (mute_event fuel t).
Proof. intros H. unfold mute_event. apply set_mute_quiet; [exact H|]. intros. apply inner_quiet. assumption. Qed.
Ltac known ::= first [simple apply plain_quiet; sub | match goal with |- holds Qt (Ok (BKTrackInstrumentUpdateFlags _ _)) => apply iflags_quiet; sub end | simple apply mute_event_quiet; sub].
Lemma set_phase_quiet fuel t p : Qt t -> holds Qt (track_set_phase fuel t p).
Proof. intros H. unfold track_set_phase. keep. Qed.
Ltac known ::= first [match goal with |- holds Qt (Ok (BKTrackInstrumentUpdateFlags _ _)) => apply iflags_quiet; sub end | simple apply set_phase_quiet; sub].

Lemma tick_loop_quiet fuel n : forall i t l, Qt t -> holds Qt (track_tick_loop fuel n i t l).
Proof.
  induction n as [|n IH]; intros i t l H; cbn [track_tick_loop]; [exact H|].
  cbv zeta. do 3 (apply holds_any; intros ?; pairs).
  apply (holds_bind Qt); [|intros ? ?; apply IH; assumption]. keep.
Qed.
Lemma instr_tick_quiet fuel t l : Qt t -> holds Qt (BKTrackInstrumentTick fuel t l).
Proof.
  intros H. unfold BKTrackInstrumentTick. destruct (tr_instr t) as [[]|]; [|exact I].
  apply (holds_bind Qt); [apply tick_loop_quiet; exact H|]. intros y Y. apply iflags_quiet. exact Y.
Qed.
Lemma init_values_quiet t : Qt t -> holds Qt (BKTrackSetInstrumentInitValues t).
Proof. intros H. unfold BKTrackSetInstrumentInitValues. keep. Qed.
Ltac known ::= first [match goal with |- holds Qt (Ok (BKTrackInstrumentUpdateFlags _ _)) => apply iflags_quiet; sub end | simple apply set_phase_quiet; sub | simple apply init_values_quiet; sub].
Lemma attack_quiet fuel t : Qt t -> holds Qt (BKTrackInstrumentAttack fuel t).
Proof. intros H. unfold BKTrackInstrumentAttack. keep. Qed.
Lemma release_quiet fuel t : Qt t -> holds Qt (BKTrackInstrumentRelease fuel t).
Proof. intros H. unfold BKTrackInstrumentRelease. keep. Qed.
Lemma mute_quiet fuel t : Qt t -> holds Qt (BKTrackInstrumentMute fuel t).
Proof. intros H. unfold BKTrackInstrumentMute. keep. Qed.
Ltac known ::= first [simple apply unit_attr_quiet; [sub|soft]
  | simple apply attack_quiet; sub | simple apply release_quiet; sub | simple apply mute_quiet; sub
  | simple apply set_mute_quiet; [sub|intros; simple apply set_phase_quiet; assumption]].
Lemma set_note_quiet fuel t n : Qt t -> holds Qt (BKTrackSetNote fuel t n).
Proof. intros H. unfold BKTrackSetNote. keep. Qed.
Lemma state_instr_quiet fuel t i : Qt t -> holds Qt (state_set_instrument fuel t i).
Proof. intros H. unfold state_set_instrument. keep. Qed.
Ltac known ::= first [match goal with |- holds Qt (Ok (BKTrackInstrumentUpdateFlags _ _)) => apply iflags_quiet; sub end | simple apply init_values_quiet; sub | simple apply state_instr_quiet; sub | simple apply set_note_quiet; sub
  | simple apply attack_quiet; sub | simple apply release_quiet; sub | simple apply mute_quiet; sub].
Lemma set_instr_quiet fuel t i : Qt t -> holds Qt (BKTrackSetInstrument fuel t i).
Proof. intros H. unfold BKTrackSetInstrument. keep. Qed.
Lemma effect_tick_quiet t : Qt t -> holds Qt (BKTrackEffectTick t).
Proof. intros H. unfold BKTrackEffectTick. keep. Qed.
Ltac known ::= first [simple apply arp_tick_quiet; sub | simple apply instr_tick_quiet; sub | simple apply update_quiet; sub | simple apply effect_tick_quiet; sub].
Lemma tick_quiet fuel t : Qt t -> holds Qt (BKTrackTick fuel t).
Proof. intros H. unfold BKTrackTick. apply eflags_quiet in H. keep. Qed.
Lemma set_effect_quiet t ef m s : Qt t -> holds Qtp (BKTrackSetEffect t ef m s).
Proof. intros H. unfold BKTrackSetEffect. keep. Qed.

(** Attributes of tracks. *)
Ltac known ::= first [simple apply note_quiet; sub | simple apply set_note_quiet; sub | simple apply set_effect_quiet; sub | simple apply set_instr_quiet; sub
  | simple apply arp_notes_quiet; sub].
Lemma track_attr_quiet fuel t a v : Qt t -> (sets_volume a -> v <= V) -> holds Qtp (BKTrackSetAttr fuel t a v).
Proof.
  intros H W. unfold BKTrackSetAttr, BKTrackSetVolume, BKTrackSetPanning. cbv zeta.
  destruct (Z.eqb_spec a BK_MASTER_VOLUME) as [E|]; [|destruct (Z.eqb_spec a BK_VOLUME); [keep|destruct (a =? BK_PANNING); [keep|destruct (Z.eqb_spec a BK_WAVEFORM)]]].
  - split; [exact (proj1 H)|]. change (0 <= BKClamp v 0 BK_MAX_VOLUME <= V). split; [|apply clamp_le; apply W; left; exact E].
    unfold BKClamp, BK_MAX_VOLUME. destruct (Z.ltb_spec v 0); [lia|]. destruct (Z.gtb_spec v 32767); lia.
  - apply (holds_bind Qup); [apply set_attr_quiet; [exact (proj1 H)|soft]|]. intros [u r] U. unfold Qup in U. cbn [fst] in U. keep.
  - destruct (Z.eqb_spec a BK_DUTY_CYCLE).
    { apply (holds_bind Qup); [apply set_attr_quiet; [exact (proj1 H)|soft]|]. intros [u r] U. unfold Qup in U. cbn [fst] in U. destruct (r =? 0); exact (conj U (proj2 H)). }
    repeat (match goal with |- holds _ (if ?c then _ else _) => destruct c; [solve [keep]|] end).
    apply (holds_bind Qup); [apply set_attr_quiet; [exact (proj1 H)|]|].
    + intros [L|L]; [congruence|]. apply W. right. exact L.
    + intros [u r] U. exact (conj U (proj2 H)).
Qed.
Lemma set_data_t_quiet t a d : Qt t -> a <> BK_SAMPLE \/ d = None -> holds Qtp (track_set_data t a d).
Proof.
  intros H T. unfold track_set_data. cbv zeta. apply (holds_bind Qtp).
  - destruct (_ || _); [|exact H]. apply (holds_bind Qup).
    + apply set_ptr_quiet; [exact (proj1 H)|]. destruct T as [T| ->]; [left; exact T|right; reflexivity].
    + intros [u r] U. unfold Qup in U. cbn [fst] in U. destruct d as [[[? ?] ?]|]; [destruct (r =? 0)|]; exact (conj U (proj2 H)).
  - intros [y r] Y. unfold Qtp in Y. cbn [fst] in Y. keep.
Qed.
Lemma track_ptr_quiet fuel t a p s : Qt t -> match p with TNull => True | TData _ _ _ => a <> BK_SAMPLE | TUnit _ => False | _ => True end ->
  holds Qtp (BKTrackSetPtr fuel t a p s).
Proof.
  intros H T. unfold BKTrackSetPtr. destruct (attr_type a =? BK_EFFECT_TYPE); [keep|]. destruct (_ || _) eqn:W.
  { destruct p; try exact I; apply set_data_t_quiet; auto. }
  destruct (a =? BK_INSTRUMENT); [keep|]. destruct (a =? BK_ARPEGGIO); [keep|].
  destruct p; try exact I; [|contradiction]. cbn [bind]. apply (holds_bind Qup); [apply set_ptr_quiet; [exact (proj1 H)|auto]|].
  intros [u r] U. exact (conj U (proj2 H)).
Qed.

Lemma cleared_quiet t : Qt t -> Qt (cleared t).
Proof. intros [H _]. split; [exact H|]. cbn. lia. Qed.
Lemma track_clear_quiet fuel t : Qt t -> holds Qt (BKTrackClear fuel t).
Proof.
  intros H. unfold BKTrackClear. cbv zeta. apply (holds_bind Qu); [apply clear_quiet; exact (proj1 H)|]. intros u U.
  apply (holds_bind Qt); [apply set_instr_quiet; exact (conj U (proj2 H))|]. intros y Y. apply cleared_quiet in Y. revert Y. generalize (cleared y).
  destruct H as [_ M]. intros z Y. clear - Y M V0.
  assert (SM : forall a (v : Z), a <> BK_MASTER_VOLUME -> ~ (BK_VOLUME_0 <= a <= BK_VOLUME_7) -> sets_volume a -> v <= V) by (intros a v A1 A2 [?|?]; tauto).
  repeat (apply (holds_bind Qtp);
    [apply track_attr_quiet; [eassumption|first [apply SM; [discriminate|let L := fresh in let N := fresh in intros [L N]; first [apply L; reflexivity|apply N; reflexivity]]|intros _; lia]]
    |let y := fresh "y" in intros [y ?] ?; match goal with K : Qtp _ |- _ => unfold Qtp in K; cbn [fst] in K end]).
  assumption.
Qed.
Lemma data_event_quiet t ev : Qt t -> holds Qtp (track_data_event t ev).
Proof.
  intros H. unfold track_data_event. cbv zeta. destruct (sm_data (un_sample (tr_unit t))); [|exact H].
  apply (holds_bind Qup); [apply data_callback_quiet; destruct ev; exact (proj1 H)|]. intros [u r] U. unfold Qup in U. cbn [fst] in U.
  apply (holds_bind Qt); [destruct (r =? 0); [apply note_quiet; exact (conj U (proj2 H))|exact (conj U (proj2 H))]|]. intros y Y.
  destruct ev; [destruct (r <? 0)|]; exact Y.
Qed.
Lemma instr_set_quiet fuel t sl v so sl2 : Qt t -> holds Qtp (track_instr_set fuel t sl v so sl2).
Proof.
  intros H. unfold track_instr_set. destruct (tr_instr t) as [[id i]|]; [|exact H]. apply holds_any. intros [[i' s] code].
  destruct (negb _); [exact H|]. cbv zeta. apply (holds_bind Qt).
  { destruct (negb _); [apply mute_event_quiet|]; exact H. }
  intros y Y. apply (holds_bind Qt); [apply update_quiet; apply iflags_quiet; exact Y|]. intros z Z1. exact Z1.
Qed.
Ltac known ::= first [simple apply set_instr_quiet; sub | simple apply state_instr_quiet; sub].
Lemma instr_dispose_quiet fuel t : Qt t -> holds Qt (track_instr_dispose fuel t).
Proof. intros H. unfold track_instr_dispose. keep. Qed.

Lemma tstep_quiet fuel t o t' l : calm_call fuel V o -> Qt t -> tstep fuel t o = Ok (t', l) -> Qt t'.
Proof.
  intros P H E. assert (K : holds Qtp (tstep fuel t o)); [|rewrite E in K; exact K]. clear E.
  destruct o; cbn [calm_call] in P; try contradiction; cbn [tstep].
  - destruct P as (P1 & P2 & P3 & P4 & P5). rewrite u32_id by (unfold in_u32 in P1; lia). rewrite s32_id by (unfold in_s32 in P2; lia).
    apply (holds_bind Qtp); [apply track_attr_quiet; assumption|]. intros [y r] Y. exact Y.
  - destruct P as (P1 & P2 & P3). rewrite u32_id by (unfold in_u32 in P1; lia).
    apply (holds_bind Qtp); [apply track_ptr_quiet; [exact H|]|intros [y r] Y; exact Y].
    destruct ptr; try exact I; [|contradiction]. destruct P3 as [-> _]. discriminate.
  - apply (holds_bind Qtp); [apply data_event_quiet; exact H|]. intros [y r] Y. exact Y.
  - apply (holds_bind Qtp); [apply instr_set_quiet; exact H|]. intros [y r] Y. exact Y.
  - apply (holds_bind Qt); [apply instr_dispose_quiet; exact H|]. intros y Y. exact Y.
  - apply (holds_bind Qt); [apply track_clear_quiet; exact H|]. intros y Y. exact Y.
Qed.

End Quiet.

(** ** Public statements *)

(** The context, and the level of every channel, stay. *)
Definition stays (t t' : track) : Prop := un_ctx (tr_unit t') = un_ctx (tr_unit t) /\ un_lastPulse (tr_unit t') = un_lastPulse (tr_unit t).

Lemma quiet_Qt V t : quiet_track V t -> Qt V (un_ctx (tr_unit t)) (un_lastPulse (tr_unit t)) t.
Proof. intros [A B]. split; [split; [exact A|split; reflexivity]|exact B]. Qed.
Lemma Qt_quiet V c lp t : Qt V c lp t -> quiet_track V t /\ un_ctx (tr_unit t) = c /\ un_lastPulse (tr_unit t) = lp.
Proof. intros [[A B] C]. split; [exact (conj A C)|]. exact B. Qed.

Lemma call_quiet V fuel t o t' l : 0 <= V -> calm_call fuel V o -> quiet_track V t -> tstep fuel t o = Ok (t', l) -> quiet_track V t' /\ stays t t'.
Proof. intros V0 C Q E. apply (Qt_quiet V). eapply tstep_quiet; [exact V0|exact C|apply quiet_Qt; exact Q|exact E]. Qed.

Lemma tick_quiet' V fuel t t' : 0 <= V -> quiet_track V t -> BKTrackTick fuel t = Ok t' -> quiet_track V t' /\ stays t t'.
Proof. intros V0 Q E. apply (Qt_quiet V). pose proof (tick_quiet V V0 _ _ fuel t (quiet_Qt _ _ Q)) as K. rewrite E in K. exact K. Qed.

Lemma update_quiet' V t t' : 0 <= V -> quiet_track V t -> BKTrackUpdateUnit t = Ok t' -> quiet_track V t' /\ stays t t'.
Proof. intros V0 Q E. apply (Qt_quiet V). pose proof (update_quiet V V0 _ _ t (quiet_Qt _ _ Q)) as K. rewrite E in K. exact K. Qed.

Definition silence : list Z := repeat 0 (Z.to_nat BK_MAX_CHANNELS).

Lemma unit_reset_quiet V c lp u : 0 <= V -> Qu V c lp u -> holds (Qu V c silence) (BKUnitReset u).
Proof.
  intros V0 H. unfold BKUnitReset. apply (holds_bind (Qu V c lp)); [apply clear_quiet; assumption|]. intros u1 ((A & B & C & D & _) & E).
  split; [|split; [apply E|reflexivity]]. split; [discriminate|]. split; [exact B|]. split; [exact C|]. split; [exact D|].
  apply Forall_forall. intros x X. apply repeat_spec in X. subst. lia.
Qed.
Lemma reset_quiet V c lp fuel t : 0 <= V -> Qt V c lp t -> holds (Qt V c silence) (BKTrackReset fuel t).
Proof.
  intros V0 H. unfold BKTrackReset. apply (holds_bind (Qu V c silence)); [apply (unit_reset_quiet _ _ lp); [exact V0|exact (proj1 H)]|]. intros u U.
  apply (holds_bind (Qtp V c silence)); [apply track_attr_quiet; [exact V0|exact (conj U (proj2 H))|]|].
  - intros [L|[L M]]; exfalso; [discriminate L|apply L; reflexivity].
  - intros [y r] Y. apply track_clear_quiet; [exact V0|exact Y].
Qed.
Lemma reset_quiet' V fuel t t' : 0 <= V -> quiet_track V t -> BKTrackReset fuel t = Ok t' ->
  quiet_track V t' /\ un_ctx (tr_unit t') = un_ctx (tr_unit t) /\ un_lastPulse (tr_unit t') = silence.
Proof. intros V0 Q E. apply (Qt_quiet V). pose proof (reset_quiet V _ _ fuel t V0 (quiet_Qt _ _ Q)) as K. rewrite E in K. exact K. Qed.

(** Initialised tracks are quiet. *)
Lemma init_quiet V fuel w t : 0 <= V -> BKTrackInit fuel w = Ok t -> quiet_track V t /\ un_ctx (tr_unit t) = None.
Proof.
  intros V0 E. enough (K : holds (Qt V None silence) (BKTrackInit fuel w)) by (rewrite E in K; apply Qt_quiet in K; tauto). clear E.
  unfold BKTrackInit. apply (holds_bind (Qu V None silence)).
  - unfold BKUnitInit. apply (holds_bind (Qup V None silence)).
    { apply set_attr_quiet; [exact V0| |intros [L|[L M]]; exfalso; [discriminate L|apply L; reflexivity]].
      split; [|split; reflexivity]. unfold quiet_unit. cbn. repeat split; try discriminate; repeat constructor; lia. }
    intros [u r] U. apply (holds_bind (Qup V None silence)).
    { apply set_attr_quiet; [exact V0|exact U|intros [L|[L M]]; exfalso; [discriminate L|apply L; reflexivity]]. }
    intros [u1 r1] U1. exact U1.
  - intros u U. apply (holds_bind (Qtp V None silence)).
    { apply track_attr_quiet; [exact V0| |intros [L|[L M]]; exfalso; [discriminate L|apply L; reflexivity]]. split; [exact U|]. cbn. lia. }
    intros [y r] Y. apply (reset_quiet _ _ silence); [exact V0|exact Y].
Qed.

(** Attaching only changes the context. *)
Lemma attach_quiet V n rate time t t' ret : 0 <= V -> quiet_track V t -> un_ctx (tr_unit t) = None -> BKTrackAttach t n rate time = Ok (t', ret) ->
  ret = 0 /\ quiet_track V t' /\ un_ctx (tr_unit t') = Some n /\ un_lastPulse (tr_unit t') = un_lastPulse (tr_unit t).
Proof.
  intros V0 [H M] C E. unfold BKTrackAttach, BKUnitAttach in E. rewrite C in E. change (0 =? 0) with true in E. cbv zeta in E. cbn iota in E.
  destruct (BKTrackUpdateUnit _) as [t1|] eqn:U in E; [|discriminate E]. cbn [bind] in E. assert (t' = t1) as -> by congruence. split; [congruence|].
  apply Qt_quiet. match type of U with BKTrackUpdateUnit ?x = _ => assert (Q : Qt V (Some n) (un_lastPulse (tr_unit t)) x) by (destruct (n =? 2); (split; [split; [exact H|split; reflexivity]|exact M]));
    pose proof (update_quiet V V0 _ _ x Q) as K end. rewrite U in K. exact K.
Qed.
