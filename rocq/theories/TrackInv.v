(** Tracks: the invariant is kept by everything a track does. *)
From Verif Require Import CInt CIntFacts DataModel UnitModel UnitSpec UnitProofs UnitProofs2 UnitInv UnitInv2 UnitInv3 UnitCount
  InterpModel InterpProofs IntervalProofs SlideIn ToneModel PropertiesTone SequenceModel SequenceSpec SequenceProofs InstrumentProofs InstrBounds
  TrackModel TrackSpec.
Ltac Zify.zify_post_hook ::= idtac.

(** ** Assignments *)

Lemma sok_none fuel rs sqs sts : Forall3 (sok fuel) rs sqs sts -> Forall3 (sok fuel) rs (repeat None (length rs)) sts.
Proof. induction 1 as [|r sq st ? ? ? (J & B & _) F IH]; constructor; [|exact IH]. split; [exact J|]. split; [exact B|exact I]. Qed.

Section Assign.
Variables (fuel : nat) (t : track).
Lemma ok_unit v : track_ok fuel t -> unit_good v -> track_ok fuel (t_unit t v).
Proof. intros H K. constructor; [exact K|exact (tk_arpDiv _ _ H)|exact (tk_instrDiv _ _ H)|exact (tk_effDiv _ _ H)|exact (tk_waveform _ _ H)|exact (tk_duty _ _ H)|exact (tk_samplePitch _ _ H)|exact (tk_master _ _ H)|exact (tk_volume _ _ H)|exact (tk_panning _ _ H)|exact (tk_curNote _ _ H)|exact (tk_note _ _ H)|exact (tk_pitch _ _ H)|exact (tk_tremolo _ _ H)|exact (tk_tremoloDelta _ _ H)|exact (tk_tremoloSteps _ _ H)|exact (tk_vibrato _ _ H)|exact (tk_vibratoDelta _ _ H)|exact (tk_vibratoSteps _ _ H)|exact (tk_arpeggio _ _ H)|exact (tk_instr _ _ H)|exact (tk_flag _ _ H)]. Qed.
Lemma ok_arpDiv v : track_ok fuel t -> div_ok v -> track_ok fuel (t_arpDiv t v).
Proof. intros H K. constructor; [exact (tk_unit _ _ H)|exact K|exact (tk_instrDiv _ _ H)|exact (tk_effDiv _ _ H)|exact (tk_waveform _ _ H)|exact (tk_duty _ _ H)|exact (tk_samplePitch _ _ H)|exact (tk_master _ _ H)|exact (tk_volume _ _ H)|exact (tk_panning _ _ H)|exact (tk_curNote _ _ H)|exact (tk_note _ _ H)|exact (tk_pitch _ _ H)|exact (tk_tremolo _ _ H)|exact (tk_tremoloDelta _ _ H)|exact (tk_tremoloSteps _ _ H)|exact (tk_vibrato _ _ H)|exact (tk_vibratoDelta _ _ H)|exact (tk_vibratoSteps _ _ H)|exact (tk_arpeggio _ _ H)|exact (tk_instr _ _ H)|exact (tk_flag _ _ H)]. Qed.
Lemma ok_instrDiv v : track_ok fuel t -> div_ok v -> track_ok fuel (t_instrDiv t v).
Proof. intros H K. constructor; [exact (tk_unit _ _ H)|exact (tk_arpDiv _ _ H)|exact K|exact (tk_effDiv _ _ H)|exact (tk_waveform _ _ H)|exact (tk_duty _ _ H)|exact (tk_samplePitch _ _ H)|exact (tk_master _ _ H)|exact (tk_volume _ _ H)|exact (tk_panning _ _ H)|exact (tk_curNote _ _ H)|exact (tk_note _ _ H)|exact (tk_pitch _ _ H)|exact (tk_tremolo _ _ H)|exact (tk_tremoloDelta _ _ H)|exact (tk_tremoloSteps _ _ H)|exact (tk_vibrato _ _ H)|exact (tk_vibratoDelta _ _ H)|exact (tk_vibratoSteps _ _ H)|exact (tk_arpeggio _ _ H)|exact (tk_instr _ _ H)|exact (tk_flag _ _ H)]. Qed.
Lemma ok_effDiv v : track_ok fuel t -> div_ok v -> track_ok fuel (t_effDiv t v).
Proof. intros H K. constructor; [exact (tk_unit _ _ H)|exact (tk_arpDiv _ _ H)|exact (tk_instrDiv _ _ H)|exact K|exact (tk_waveform _ _ H)|exact (tk_duty _ _ H)|exact (tk_samplePitch _ _ H)|exact (tk_master _ _ H)|exact (tk_volume _ _ H)|exact (tk_panning _ _ H)|exact (tk_curNote _ _ H)|exact (tk_note _ _ H)|exact (tk_pitch _ _ H)|exact (tk_tremolo _ _ H)|exact (tk_tremoloDelta _ _ H)|exact (tk_tremoloSteps _ _ H)|exact (tk_vibrato _ _ H)|exact (tk_vibratoDelta _ _ H)|exact (tk_vibratoSteps _ _ H)|exact (tk_arpeggio _ _ H)|exact (tk_instr _ _ H)|exact (tk_flag _ _ H)]. Qed.
Lemma ok_duty v : track_ok fuel t -> 0 <= v <= 15 -> track_ok fuel (t_duty t v).
Proof. intros H K. constructor; [exact (tk_unit _ _ H)|exact (tk_arpDiv _ _ H)|exact (tk_instrDiv _ _ H)|exact (tk_effDiv _ _ H)|exact (tk_waveform _ _ H)|exact K|exact (tk_samplePitch _ _ H)|exact (tk_master _ _ H)|exact (tk_volume _ _ H)|exact (tk_panning _ _ H)|exact (tk_curNote _ _ H)|exact (tk_note _ _ H)|exact (tk_pitch _ _ H)|exact (tk_tremolo _ _ H)|exact (tk_tremoloDelta _ _ H)|exact (tk_tremoloSteps _ _ H)|exact (tk_vibrato _ _ H)|exact (tk_vibratoDelta _ _ H)|exact (tk_vibratoSteps _ _ H)|exact (tk_arpeggio _ _ H)|exact (tk_instr _ _ H)|exact (tk_flag _ _ H)]. Qed.
Lemma ok_samplePitch v : track_ok fuel t -> Z.abs v <= MAX_PITCH -> track_ok fuel (t_samplePitch t v).
Proof. intros H K. constructor; [exact (tk_unit _ _ H)|exact (tk_arpDiv _ _ H)|exact (tk_instrDiv _ _ H)|exact (tk_effDiv _ _ H)|exact (tk_waveform _ _ H)|exact (tk_duty _ _ H)|exact K|exact (tk_master _ _ H)|exact (tk_volume _ _ H)|exact (tk_panning _ _ H)|exact (tk_curNote _ _ H)|exact (tk_note _ _ H)|exact (tk_pitch _ _ H)|exact (tk_tremolo _ _ H)|exact (tk_tremoloDelta _ _ H)|exact (tk_tremoloSteps _ _ H)|exact (tk_vibrato _ _ H)|exact (tk_vibratoDelta _ _ H)|exact (tk_vibratoSteps _ _ H)|exact (tk_arpeggio _ _ H)|exact (tk_instr _ _ H)|exact (tk_flag _ _ H)]. Qed.
Lemma ok_master v : track_ok fuel t -> 0 <= v <= 32767 -> track_ok fuel (t_master t v).
Proof. intros H K. constructor; [exact (tk_unit _ _ H)|exact (tk_arpDiv _ _ H)|exact (tk_instrDiv _ _ H)|exact (tk_effDiv _ _ H)|exact (tk_waveform _ _ H)|exact (tk_duty _ _ H)|exact (tk_samplePitch _ _ H)|exact K|exact (tk_volume _ _ H)|exact (tk_panning _ _ H)|exact (tk_curNote _ _ H)|exact (tk_note _ _ H)|exact (tk_pitch _ _ H)|exact (tk_tremolo _ _ H)|exact (tk_tremoloDelta _ _ H)|exact (tk_tremoloSteps _ _ H)|exact (tk_vibrato _ _ H)|exact (tk_vibratoDelta _ _ H)|exact (tk_vibratoSteps _ _ H)|exact (tk_arpeggio _ _ H)|exact (tk_instr _ _ H)|exact (tk_flag _ _ H)]. Qed.
Lemma ok_volume v : track_ok fuel t -> slide_in 15 0 32767 v -> track_ok fuel (t_volume t v).
Proof. intros H K. constructor; [exact (tk_unit _ _ H)|exact (tk_arpDiv _ _ H)|exact (tk_instrDiv _ _ H)|exact (tk_effDiv _ _ H)|exact (tk_waveform _ _ H)|exact (tk_duty _ _ H)|exact (tk_samplePitch _ _ H)|exact (tk_master _ _ H)|exact K|exact (tk_panning _ _ H)|exact (tk_curNote _ _ H)|exact (tk_note _ _ H)|exact (tk_pitch _ _ H)|exact (tk_tremolo _ _ H)|exact (tk_tremoloDelta _ _ H)|exact (tk_tremoloSteps _ _ H)|exact (tk_vibrato _ _ H)|exact (tk_vibratoDelta _ _ H)|exact (tk_vibratoSteps _ _ H)|exact (tk_arpeggio _ _ H)|exact (tk_instr _ _ H)|exact (tk_flag _ _ H)]. Qed.
Lemma ok_panning v : track_ok fuel t -> slide_in 15 (-32767) 32767 v -> track_ok fuel (t_panning t v).
Proof. intros H K. constructor; [exact (tk_unit _ _ H)|exact (tk_arpDiv _ _ H)|exact (tk_instrDiv _ _ H)|exact (tk_effDiv _ _ H)|exact (tk_waveform _ _ H)|exact (tk_duty _ _ H)|exact (tk_samplePitch _ _ H)|exact (tk_master _ _ H)|exact (tk_volume _ _ H)|exact K|exact (tk_curNote _ _ H)|exact (tk_note _ _ H)|exact (tk_pitch _ _ H)|exact (tk_tremolo _ _ H)|exact (tk_tremoloDelta _ _ H)|exact (tk_tremoloSteps _ _ H)|exact (tk_vibrato _ _ H)|exact (tk_vibratoDelta _ _ H)|exact (tk_vibratoSteps _ _ H)|exact (tk_arpeggio _ _ H)|exact (tk_instr _ _ H)|exact (tk_flag _ _ H)]. Qed.
Lemma ok_curNote v : track_ok fuel t -> -1 <= v <= MAX_NOTE -> track_ok fuel (t_curNote t v).
Proof. intros H K. constructor; [exact (tk_unit _ _ H)|exact (tk_arpDiv _ _ H)|exact (tk_instrDiv _ _ H)|exact (tk_effDiv _ _ H)|exact (tk_waveform _ _ H)|exact (tk_duty _ _ H)|exact (tk_samplePitch _ _ H)|exact (tk_master _ _ H)|exact (tk_volume _ _ H)|exact (tk_panning _ _ H)|exact K|exact (tk_note _ _ H)|exact (tk_pitch _ _ H)|exact (tk_tremolo _ _ H)|exact (tk_tremoloDelta _ _ H)|exact (tk_tremoloSteps _ _ H)|exact (tk_vibrato _ _ H)|exact (tk_vibratoDelta _ _ H)|exact (tk_vibratoSteps _ _ H)|exact (tk_arpeggio _ _ H)|exact (tk_instr _ _ H)|exact (tk_flag _ _ H)]. Qed.
Lemma ok_note v : track_ok fuel t -> slide_in 0 0 MAX_NOTE v -> track_ok fuel (t_note t v).
Proof. intros H K. constructor; [exact (tk_unit _ _ H)|exact (tk_arpDiv _ _ H)|exact (tk_instrDiv _ _ H)|exact (tk_effDiv _ _ H)|exact (tk_waveform _ _ H)|exact (tk_duty _ _ H)|exact (tk_samplePitch _ _ H)|exact (tk_master _ _ H)|exact (tk_volume _ _ H)|exact (tk_panning _ _ H)|exact (tk_curNote _ _ H)|exact K|exact (tk_pitch _ _ H)|exact (tk_tremolo _ _ H)|exact (tk_tremoloDelta _ _ H)|exact (tk_tremoloSteps _ _ H)|exact (tk_vibrato _ _ H)|exact (tk_vibratoDelta _ _ H)|exact (tk_vibratoSteps _ _ H)|exact (tk_arpeggio _ _ H)|exact (tk_instr _ _ H)|exact (tk_flag _ _ H)]. Qed.
Lemma ok_pitch v : track_ok fuel t -> Z.abs v <= MAX_PITCH -> track_ok fuel (t_pitch t v).
Proof. intros H K. constructor; [exact (tk_unit _ _ H)|exact (tk_arpDiv _ _ H)|exact (tk_instrDiv _ _ H)|exact (tk_effDiv _ _ H)|exact (tk_waveform _ _ H)|exact (tk_duty _ _ H)|exact (tk_samplePitch _ _ H)|exact (tk_master _ _ H)|exact (tk_volume _ _ H)|exact (tk_panning _ _ H)|exact (tk_curNote _ _ H)|exact (tk_note _ _ H)|exact K|exact (tk_tremolo _ _ H)|exact (tk_tremoloDelta _ _ H)|exact (tk_tremoloSteps _ _ H)|exact (tk_vibrato _ _ H)|exact (tk_vibratoDelta _ _ H)|exact (tk_vibratoSteps _ _ H)|exact (tk_arpeggio _ _ H)|exact (tk_instr _ _ H)|exact (tk_flag _ _ H)]. Qed.
Lemma ok_tremolo v : track_ok fuel t -> interval_inv 14 v -> track_ok fuel (t_tremolo t v).
Proof. intros H K. constructor; [exact (tk_unit _ _ H)|exact (tk_arpDiv _ _ H)|exact (tk_instrDiv _ _ H)|exact (tk_effDiv _ _ H)|exact (tk_waveform _ _ H)|exact (tk_duty _ _ H)|exact (tk_samplePitch _ _ H)|exact (tk_master _ _ H)|exact (tk_volume _ _ H)|exact (tk_panning _ _ H)|exact (tk_curNote _ _ H)|exact (tk_note _ _ H)|exact (tk_pitch _ _ H)|exact K|exact (tk_tremoloDelta _ _ H)|exact (tk_tremoloSteps _ _ H)|exact (tk_vibrato _ _ H)|exact (tk_vibratoDelta _ _ H)|exact (tk_vibratoSteps _ _ H)|exact (tk_arpeggio _ _ H)|exact (tk_instr _ _ H)|exact (tk_flag _ _ H)]. Qed.
Lemma ok_tremoloDelta v : track_ok fuel t -> slide_in 15 0 32767 v -> track_ok fuel (t_tremoloDelta t v).
Proof. intros H K. constructor; [exact (tk_unit _ _ H)|exact (tk_arpDiv _ _ H)|exact (tk_instrDiv _ _ H)|exact (tk_effDiv _ _ H)|exact (tk_waveform _ _ H)|exact (tk_duty _ _ H)|exact (tk_samplePitch _ _ H)|exact (tk_master _ _ H)|exact (tk_volume _ _ H)|exact (tk_panning _ _ H)|exact (tk_curNote _ _ H)|exact (tk_note _ _ H)|exact (tk_pitch _ _ H)|exact (tk_tremolo _ _ H)|exact K|exact (tk_tremoloSteps _ _ H)|exact (tk_vibrato _ _ H)|exact (tk_vibratoDelta _ _ H)|exact (tk_vibratoSteps _ _ H)|exact (tk_arpeggio _ _ H)|exact (tk_instr _ _ H)|exact (tk_flag _ _ H)]. Qed.
Lemma ok_tremoloSteps v : track_ok fuel t -> slide_in 14 0 65536 v -> track_ok fuel (t_tremoloSteps t v).
Proof. intros H K. constructor; [exact (tk_unit _ _ H)|exact (tk_arpDiv _ _ H)|exact (tk_instrDiv _ _ H)|exact (tk_effDiv _ _ H)|exact (tk_waveform _ _ H)|exact (tk_duty _ _ H)|exact (tk_samplePitch _ _ H)|exact (tk_master _ _ H)|exact (tk_volume _ _ H)|exact (tk_panning _ _ H)|exact (tk_curNote _ _ H)|exact (tk_note _ _ H)|exact (tk_pitch _ _ H)|exact (tk_tremolo _ _ H)|exact (tk_tremoloDelta _ _ H)|exact K|exact (tk_vibrato _ _ H)|exact (tk_vibratoDelta _ _ H)|exact (tk_vibratoSteps _ _ H)|exact (tk_arpeggio _ _ H)|exact (tk_instr _ _ H)|exact (tk_flag _ _ H)]. Qed.
Lemma ok_vibrato v : track_ok fuel t -> interval_inv 0 v -> track_ok fuel (t_vibrato t v).
Proof. intros H K. constructor; [exact (tk_unit _ _ H)|exact (tk_arpDiv _ _ H)|exact (tk_instrDiv _ _ H)|exact (tk_effDiv _ _ H)|exact (tk_waveform _ _ H)|exact (tk_duty _ _ H)|exact (tk_samplePitch _ _ H)|exact (tk_master _ _ H)|exact (tk_volume _ _ H)|exact (tk_panning _ _ H)|exact (tk_curNote _ _ H)|exact (tk_note _ _ H)|exact (tk_pitch _ _ H)|exact (tk_tremolo _ _ H)|exact (tk_tremoloDelta _ _ H)|exact (tk_tremoloSteps _ _ H)|exact K|exact (tk_vibratoDelta _ _ H)|exact (tk_vibratoSteps _ _ H)|exact (tk_arpeggio _ _ H)|exact (tk_instr _ _ H)|exact (tk_flag _ _ H)]. Qed.
Lemma ok_vibratoDelta v : track_ok fuel t -> slide_in 0 (- MAX_VIBRATO) MAX_VIBRATO v -> track_ok fuel (t_vibratoDelta t v).
Proof. intros H K. constructor; [exact (tk_unit _ _ H)|exact (tk_arpDiv _ _ H)|exact (tk_instrDiv _ _ H)|exact (tk_effDiv _ _ H)|exact (tk_waveform _ _ H)|exact (tk_duty _ _ H)|exact (tk_samplePitch _ _ H)|exact (tk_master _ _ H)|exact (tk_volume _ _ H)|exact (tk_panning _ _ H)|exact (tk_curNote _ _ H)|exact (tk_note _ _ H)|exact (tk_pitch _ _ H)|exact (tk_tremolo _ _ H)|exact (tk_tremoloDelta _ _ H)|exact (tk_tremoloSteps _ _ H)|exact (tk_vibrato _ _ H)|exact K|exact (tk_vibratoSteps _ _ H)|exact (tk_arpeggio _ _ H)|exact (tk_instr _ _ H)|exact (tk_flag _ _ H)]. Qed.
Lemma ok_vibratoSteps v : track_ok fuel t -> slide_in 14 0 65536 v -> track_ok fuel (t_vibratoSteps t v).
Proof. intros H K. constructor; [exact (tk_unit _ _ H)|exact (tk_arpDiv _ _ H)|exact (tk_instrDiv _ _ H)|exact (tk_effDiv _ _ H)|exact (tk_waveform _ _ H)|exact (tk_duty _ _ H)|exact (tk_samplePitch _ _ H)|exact (tk_master _ _ H)|exact (tk_volume _ _ H)|exact (tk_panning _ _ H)|exact (tk_curNote _ _ H)|exact (tk_note _ _ H)|exact (tk_pitch _ _ H)|exact (tk_tremolo _ _ H)|exact (tk_tremoloDelta _ _ H)|exact (tk_tremoloSteps _ _ H)|exact (tk_vibrato _ _ H)|exact (tk_vibratoDelta _ _ H)|exact K|exact (tk_arpeggio _ _ H)|exact (tk_instr _ _ H)|exact (tk_flag _ _ H)]. Qed.
Lemma ok_arpeggio v : track_ok fuel t -> arp_ok v -> track_ok fuel (t_arpeggio t v).
Proof. intros H K. constructor; [exact (tk_unit _ _ H)|exact (tk_arpDiv _ _ H)|exact (tk_instrDiv _ _ H)|exact (tk_effDiv _ _ H)|exact (tk_waveform _ _ H)|exact (tk_duty _ _ H)|exact (tk_samplePitch _ _ H)|exact (tk_master _ _ H)|exact (tk_volume _ _ H)|exact (tk_panning _ _ H)|exact (tk_curNote _ _ H)|exact (tk_note _ _ H)|exact (tk_pitch _ _ H)|exact (tk_tremolo _ _ H)|exact (tk_tremoloDelta _ _ H)|exact (tk_tremoloSteps _ _ H)|exact (tk_vibrato _ _ H)|exact (tk_vibratoDelta _ _ H)|exact (tk_vibratoSteps _ _ H)|exact K|exact (tk_instr _ _ H)|exact (tk_flag _ _ H)]. Qed.
Lemma ok_rate v : track_ok fuel t -> track_ok fuel (t_rate t v).
Proof. intros H. constructor; [exact (tk_unit _ _ H)|exact (tk_arpDiv _ _ H)|exact (tk_instrDiv _ _ H)|exact (tk_effDiv _ _ H)|exact (tk_waveform _ _ H)|exact (tk_duty _ _ H)|exact (tk_samplePitch _ _ H)|exact (tk_master _ _ H)|exact (tk_volume _ _ H)|exact (tk_panning _ _ H)|exact (tk_curNote _ _ H)|exact (tk_note _ _ H)|exact (tk_pitch _ _ H)|exact (tk_tremolo _ _ H)|exact (tk_tremoloDelta _ _ H)|exact (tk_tremoloSteps _ _ H)|exact (tk_vibrato _ _ H)|exact (tk_vibratoDelta _ _ H)|exact (tk_vibratoSteps _ _ H)|exact (tk_arpeggio _ _ H)|exact (tk_instr _ _ H)|exact (tk_flag _ _ H)]. Qed.
Lemma ok_dataId v : track_ok fuel t -> track_ok fuel (t_dataId t v).
Proof. intros H. constructor; [exact (tk_unit _ _ H)|exact (tk_arpDiv _ _ H)|exact (tk_instrDiv _ _ H)|exact (tk_effDiv _ _ H)|exact (tk_waveform _ _ H)|exact (tk_duty _ _ H)|exact (tk_samplePitch _ _ H)|exact (tk_master _ _ H)|exact (tk_volume _ _ H)|exact (tk_panning _ _ H)|exact (tk_curNote _ _ H)|exact (tk_note _ _ H)|exact (tk_pitch _ _ H)|exact (tk_tremolo _ _ H)|exact (tk_tremoloDelta _ _ H)|exact (tk_tremoloSteps _ _ H)|exact (tk_vibrato _ _ H)|exact (tk_vibratoDelta _ _ H)|exact (tk_vibratoSteps _ _ H)|exact (tk_arpeggio _ _ H)|exact (tk_instr _ _ H)|exact (tk_flag _ _ H)]. Qed.
Lemma ok_waveform v : track_ok fuel t -> in_s32 v = true -> track_ok fuel (t_waveform t v).
Proof. intros H K. constructor; [exact (tk_unit _ _ H)|exact (tk_arpDiv _ _ H)|exact (tk_instrDiv _ _ H)|exact (tk_effDiv _ _ H)|exact K|exact (tk_duty _ _ H)|exact (tk_samplePitch _ _ H)|exact (tk_master _ _ H)|exact (tk_volume _ _ H)|exact (tk_panning _ _ H)|exact (tk_curNote _ _ H)|exact (tk_note _ _ H)|exact (tk_pitch _ _ H)|exact (tk_tremolo _ _ H)|exact (tk_tremoloDelta _ _ H)|exact (tk_tremoloSteps _ _ H)|exact (tk_vibrato _ _ H)|exact (tk_vibratoDelta _ _ H)|exact (tk_vibratoSteps _ _ H)|exact (tk_arpeggio _ _ H)|exact (tk_instr _ _ H)|exact (tk_flag _ _ H)]. Qed.
Lemma ok_istate s : track_ok fuel t -> instr_ok fuel (tr_instr t) s -> track_ok fuel (t_istate t s).
Proof. intros H K. constructor; [exact (tk_unit _ _ H)|exact (tk_arpDiv _ _ H)|exact (tk_instrDiv _ _ H)|exact (tk_effDiv _ _ H)|exact (tk_waveform _ _ H)|exact (tk_duty _ _ H)|exact (tk_samplePitch _ _ H)|exact (tk_master _ _ H)|exact (tk_volume _ _ H)|exact (tk_panning _ _ H)|exact (tk_curNote _ _ H)|exact (tk_note _ _ H)|exact (tk_pitch _ _ H)|exact (tk_tremolo _ _ H)|exact (tk_tremoloDelta _ _ H)|exact (tk_tremoloSteps _ _ H)|exact (tk_vibrato _ _ H)|exact (tk_vibratoDelta _ _ H)|exact (tk_vibratoSteps _ _ H)|exact (tk_arpeggio _ _ H)|exact K|exact (tk_flag _ _ H)]. Qed.
Lemma ok_put k b : track_ok fuel t -> k <> FInstr -> track_ok fuel (put t k b).
Proof. intros H N. constructor; [exact (tk_unit _ _ H)|exact (tk_arpDiv _ _ H)|exact (tk_instrDiv _ _ H)|exact (tk_effDiv _ _ H)|exact (tk_waveform _ _ H)|exact (tk_duty _ _ H)|exact (tk_samplePitch _ _ H)|exact (tk_master _ _ H)|exact (tk_volume _ _ H)|exact (tk_panning _ _ H)|exact (tk_curNote _ _ H)|exact (tk_note _ _ H)|exact (tk_pitch _ _ H)|exact (tk_tremolo _ _ H)|exact (tk_tremoloDelta _ _ H)|exact (tk_tremoloSteps _ _ H)|exact (tk_vibrato _ _ H)|exact (tk_vibratoDelta _ _ H)|exact (tk_vibratoSteps _ _ H)|exact (tk_arpeggio _ _ H)|exact (tk_instr _ _ H)|destruct k; first [exact (tk_flag _ _ H)|congruence]]. Qed.
Lemma ok_instr_on id sqs s : track_ok fuel t -> Forall3 (sok fuel) slot_ranges sqs (is_states s) -> 0 <= is_phase s <= 2 ->
  track_ok fuel (put (t_istate (t_instr t (Some (id, BKInstrumentUpdateNumSequences sqs))) s) FInstr true).
Proof. intros H F HP. assert (K : instr_ok fuel (Some (id, BKInstrumentUpdateNumSequences sqs)) s) by (split; [exact HP|]; exists sqs; auto). constructor; [exact (tk_unit _ _ H)|exact (tk_arpDiv _ _ H)|exact (tk_instrDiv _ _ H)|exact (tk_effDiv _ _ H)|exact (tk_waveform _ _ H)|exact (tk_duty _ _ H)|exact (tk_samplePitch _ _ H)|exact (tk_master _ _ H)|exact (tk_volume _ _ H)|exact (tk_panning _ _ H)|exact (tk_curNote _ _ H)|exact (tk_note _ _ H)|exact (tk_pitch _ _ H)|exact (tk_tremolo _ _ H)|exact (tk_tremoloDelta _ _ H)|exact (tk_tremoloSteps _ _ H)|exact (tk_vibrato _ _ H)|exact (tk_vibratoDelta _ _ H)|exact (tk_vibratoSteps _ _ H)|exact (tk_arpeggio _ _ H)|exact K|reflexivity]. Qed.
Lemma ok_instr_off : track_ok fuel t -> track_ok fuel (put (t_instr t None) FInstr false).
Proof.
  intros H. assert (K : instr_ok fuel None (tr_istate t)).
  { destruct (tk_instr _ _ H) as (HP & sqs & F & _). split; [exact HP|]. exists (repeat None 4). split; [|reflexivity].
    exact (sok_none _ _ _ _ F). }
  constructor; [exact (tk_unit _ _ H)|exact (tk_arpDiv _ _ H)|exact (tk_instrDiv _ _ H)|exact (tk_effDiv _ _ H)|exact (tk_waveform _ _ H)|exact (tk_duty _ _ H)|exact (tk_samplePitch _ _ H)|exact (tk_master _ _ H)|exact (tk_volume _ _ H)|exact (tk_panning _ _ H)|exact (tk_curNote _ _ H)|exact (tk_note _ _ H)|exact (tk_pitch _ _ H)|exact (tk_tremolo _ _ H)|exact (tk_tremoloDelta _ _ H)|exact (tk_tremoloSteps _ _ H)|exact (tk_vibrato _ _ H)|exact (tk_vibratoDelta _ _ H)|exact (tk_vibratoSteps _ _ H)|exact (tk_arpeggio _ _ H)|exact K|reflexivity].
Qed.
End Assign.
