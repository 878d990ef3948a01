(** Dividers, arpeggios and slides over many ticks. *)
From Verif Require Import CInt CIntFacts DataModel UnitModel UnitSpec UnitProofs UnitProofs2 UnitProofs5 UnitInv UnitInv2 UnitInv3 UnitCount
  InterpModel InterpProofs SlideIn ToneModel PropertiesTone SequenceModel TrackModel TrackSpec TrackInv TrackProofs TrackProofs2
  TrackProofs3 TrackProofs4 TrackProofs5 TrackVolume TrackPlay.
Ltac Zify.zify_post_hook ::= idtac.

Definition instr_part (t : track) : track := if has t FInstr then t_instrDiv t (div_next (tr_instrDiv t)) else t.

Lemma tick_any fuel t : track_ok fuel t ->
  exists t1 t', BKTrackTick fuel t = Ok t' /\ track_ok fuel t' /\ track_ok fuel t1 /\ play (instr_part (arp_part t)) t1 /\ (has t FInstr = false -> marks (arp_part t) t1) /\
    (if any_effect t then
       if fires (tr_effDiv t) then effects_move (t_effDiv t1 (div_next (tr_effDiv t))) t' else t' = t_effDiv t1 (div_next (tr_effDiv t))
     else t' = t1).
Proof.
  intros H. unfold BKTrackTick. cbv zeta. pose proof (effect_flags_ok fuel t H) as H0. destruct (effect_flags_marks t) as (M0 & N0 & U0 & _).
  set (t0 := BKTrackEffectUpdateFlags t) in *. clearbody t0.
  destruct (arp_part_ok fuel t0 H0) as (ta & Ea & Ha & Ma & Ua & Na & _). cbv zeta in Ea. rewrite Ea. cbn [bind]. clear Ea.
  assert (MA : marks (arp_part t) ta) by (apply (marks_trans _ (arp_part t0)); [apply marks_arp; exact M0|exact Ma]).
  assert (A2 : forall k, has (arp_part t) k = has t k) by (intros k; unfold arp_part; destruct (has t FArp); reflexivity).
  assert (A3 : tr_effDiv (arp_part t) = tr_effDiv t) by (unfold arp_part; destruct (has t FArp); reflexivity).
  match goal with |- exists t1 t', bind ?X _ = _ /\ _ => assert (K : exists tb, X = Ok tb /\ track_ok fuel tb /\ play (instr_part (arp_part t)) tb /\ (has t FInstr = false -> marks (arp_part t) tb)) end.
  { unfold instr_part. rewrite (marks_has _ _ FInstr MA) by discriminate. destruct (has (arp_part t) FInstr) eqn:HI.
    2: { exists ta. split; [reflexivity|]. split; [exact Ha|]. split; [apply marks_play; exact MA|auto]. }
    destruct (divtick_ok _ (tk_instrDiv _ _ Ha)) as (d & b & -> & D & _ & Ed). cbn [bind].
    change (d = div_next (tr_instrDiv ta)) in Ed. pose proof (ok_instrDiv fuel ta d Ha D) as H2.
    assert (HJ : has (t_instrDiv ta d) FInstr = true) by (change (has ta FInstr = true); rewrite (marks_has _ _ FInstr MA) by discriminate; exact HI).
    destruct (instr_tick_ok fuel _ (if b then 1 else 0) H2 ltac:(destruct b; lia) HJ) as (t2 & E2 & (H3 & PL)).
    exists t2. split; [exact E2|]. split; [exact H3|]. split; [|rewrite A2 in HI; congruence]. apply (play_trans _ (t_instrDiv ta d)); [|apply PL].
    destruct MA as (u & x & y & z & ->). rewrite Ed. exists u, x, y, z, (tr_istate (arp_part t)), (tr_note (arp_part t)), (tr_curNote (arp_part t)). reflexivity. }
  destruct K as (tb & -> & Hb & Pb & Qb). cbn [bind].
  destruct (update_ok fuel tb Hb) as (t1 & -> & H1 & M1). cbn [bind]. exists t1.
  assert (MT : play (instr_part (arp_part t)) t1) by (apply (play_trans _ tb); [exact Pb|apply marks_play; exact M1]).
  assert (QT : has t FInstr = false -> marks (arp_part t) t1) by (intros HI; apply (marks_trans _ tb); auto).
  assert (A4 : forall k, has (instr_part (arp_part t)) k = has t k) by (intros k; rewrite <- A2; unfold instr_part; destruct (has (arp_part t) FInstr); reflexivity).
  assert (A5 : tr_effDiv (instr_part (arp_part t)) = tr_effDiv t) by (rewrite <- A3; unfold instr_part; destruct (has (arp_part t) FInstr); reflexivity).
  assert (EE : any_effect t1 = any_effect t).
  { unfold any_effect. rewrite !(play_has _ _ _ MT) by discriminate. rewrite !A4. reflexivity. }
  assert (ED : tr_effDiv t1 = tr_effDiv t) by (rewrite <- A5; destruct MT as (? & ? & ? & ? & ? & ? & ? & ->); reflexivity).
  rewrite EE, ED. destruct (any_effect t) eqn:EA.
  - destruct (divtick_ok _ (tk_effDiv _ _ H)) as (d & b & -> & D & Eb & Ed). cbn [bind]. cbv zeta.
    change (ds_counter (tr_effDiv t) =? 0) with (fires (tr_effDiv t)) in Eb. subst b.
    change (d = div_next (tr_effDiv t)) in Ed. rewrite Ed in *. clear Ed d.
    pose proof (ok_effDiv fuel t1 _ H1 D) as H4. destruct (fires (tr_effDiv t)).
    + destruct (effect_tick_moves fuel _ H4) as (t5 & E5 & H5 & EM). exists t5. repeat (split; [assumption|]). exact EM.
    + eexists. split; [reflexivity|]. repeat (split; [assumption|]). reflexivity.
  - exists t1. split; [reflexivity|]. repeat (split; [assumption|]). reflexivity.
Qed.

(** Each part of the state a tick moves, on its own. *)
Record ticked (t t' : track) : Prop := mk_ticked {
  ti_flag : forall k, k <> FVolume -> k <> FNote -> k <> FDuty -> has t' k = has t k;
  ti_arpDiv : tr_arpDiv t' = (if has t FArp then div_next (tr_arpDiv t) else tr_arpDiv t);
  ti_arp : tr_arpeggio t' = (if has t FArp && fires (tr_arpDiv t) then arp_next (tr_arpeggio t) else tr_arpeggio t);
  ti_instrDiv : tr_instrDiv t' = (if has t FInstr then div_next (tr_instrDiv t) else tr_instrDiv t);
  ti_effDiv : tr_effDiv t' = (if any_effect t then div_next (tr_effDiv t) else tr_effDiv t);
  ti_volume : steps_if (has t FVolSlide && fires (tr_effDiv t)) (tr_volume t) (tr_volume t');
  ti_panning : steps_if (has t FPanSlide && fires (tr_effDiv t)) (tr_panning t) (tr_panning t');
  ti_note : has t FInstr = false -> steps_if (has t FPorta && fires (tr_effDiv t)) (tr_note t) (tr_note t');
  ti_curNote : has t FInstr = false -> tr_curNote t' = tr_curNote t;
  ti_pitch : tr_pitch t' = tr_pitch t;
  ti_samplePitch : tr_samplePitch t' = tr_samplePitch t;
  ti_waveform : tr_waveform t' = tr_waveform t;
  ti_rate : tr_rate t' = tr_rate t;
  ti_master : tr_master t' = tr_master t;
  ti_duty : tr_duty t' = tr_duty t;
  ti_instr : tr_instr t' = tr_instr t
}.

Lemma effect_on t : any_effect t = false -> has t FVolSlide = false /\ has t FPanSlide = false /\ has t FPorta = false /\ has t FTremolo = false /\ has t FVibrato = false.
Proof. unfold any_effect. destruct (has t FPorta), (has t FVolSlide), (has t FPanSlide), (has t FTremolo), (has t FVibrato); auto; discriminate. Qed.

Lemma effects_split t t1 t' :
  (forall k, k <> FVolume -> k <> FNote -> k <> FDuty -> has t1 k = has t k) ->
  (if any_effect t then
     if fires (tr_effDiv t) then effects_move (t_effDiv t1 (div_next (tr_effDiv t))) t' else t' = t_effDiv t1 (div_next (tr_effDiv t))
   else t' = t1) -> tr_effDiv t1 = tr_effDiv t ->
  tr_effDiv t' = (if any_effect t then div_next (tr_effDiv t) else tr_effDiv t) /\
  steps_if (has t FVolSlide && fires (tr_effDiv t)) (tr_volume t1) (tr_volume t') /\
  steps_if (has t FPanSlide && fires (tr_effDiv t)) (tr_panning t1) (tr_panning t') /\
  steps_if (has t FPorta && fires (tr_effDiv t)) (tr_note t1) (tr_note t') /\
  exists n v p td ts ti vd vs vi d,
    t' = t_effDiv (t_note (t_volume (t_panning (t_tremoloDelta (t_tremoloSteps (t_tremolo (t_vibratoDelta (t_vibratoSteps (t_vibrato t1 vi) vs) vd) ti) ts) td) p) v) n) d.
Proof.
  intros F R D.
  assert (SE : forall d, exists n v p td ts ti vd vs vi d',
    t_effDiv t1 d = t_effDiv (t_note (t_volume (t_panning (t_tremoloDelta (t_tremoloSteps (t_tremolo (t_vibratoDelta (t_vibratoSteps (t_vibrato t1 vi) vs) vd) ti) ts) td) p) v) n) d').
  { intros d. exists (tr_note t1), (tr_volume t1), (tr_panning t1), (tr_tremoloDelta t1), (tr_tremoloSteps t1), (tr_tremolo t1), (tr_vibratoDelta t1), (tr_vibratoSteps t1), (tr_vibrato t1), d. reflexivity. }
  destruct (any_effect t) eqn:EA.
  - destruct (fires (tr_effDiv t)).
    + rewrite !andb_true_r. destruct R as (n & v & p & td & ts & ti & vd & vs & vi & -> & S1 & S2 & S3 & _).
      change (has (t_effDiv t1 (div_next (tr_effDiv t)))) with (has t1) in *. rewrite !F in S1, S2, S3 by discriminate.
      split; [reflexivity|]. split; [exact S2|]. split; [exact S3|]. split; [exact S1|].
      exists n, v, p, td, ts, ti, vd, vs, vi, (div_next (tr_effDiv t)). reflexivity.
    + rewrite !andb_false_r. subst t'. split; [reflexivity|]. repeat (split; [reflexivity|]). apply SE.
  - subst t'. apply effect_on in EA. destruct EA as (-> & -> & -> & _). split; [exact D|]. repeat (split; [reflexivity|]).
    destruct (SE (tr_effDiv t1)) as (n & v & p & td & ts & ti & vd & vs & vi & d' & E).
    exists n, v, p, td, ts, ti, vd, vs, vi, d'. rewrite <- E. destruct t1; reflexivity.
Qed.

Lemma tick_ticked fuel t : track_ok fuel t -> exists t', BKTrackTick fuel t = Ok t' /\ track_ok fuel t' /\ ticked t t'.
Proof.
  intros H. destruct (tick_any fuel t H) as (t1 & t' & E & H' & H1 & PL & QT & R). exists t'. split; [exact E|]. split; [exact H'|]. clear E H H' H1.
  assert (N0 : has t FInstr = false -> tr_note t1 = tr_note t /\ tr_curNote t1 = tr_curNote t).
  { intros HI. destruct (QT HI) as (? & ? & ? & ? & ->). unfold arp_part. destruct (has t FArp); auto. }
  assert (F1 : forall k, k <> FVolume -> k <> FNote -> k <> FDuty -> has t1 k = has t k).
  { intros k X Y Z. rewrite (play_has _ _ _ PL X Y Z). unfold instr_part, arp_part. destruct (has t FArp); [destruct (has (t_arpeggio _ _) FInstr)|destruct (has t FInstr)]; reflexivity. }
  assert (D1 : tr_effDiv t1 = tr_effDiv t).
  { destruct PL as (? & ? & ? & ? & ? & ? & ? & ->). unfold instr_part, arp_part. destruct (has t FArp); [destruct (has (t_arpeggio _ _) FInstr)|destruct (has t FInstr)]; reflexivity. }
  destruct (effects_split t t1 t' F1 R D1) as (X1 & X2 & X3 & X4 & X5).
  assert (Y : tr_arpDiv t1 = (if has t FArp then div_next (tr_arpDiv t) else tr_arpDiv t) /\
    tr_arpeggio t1 = (if has t FArp && fires (tr_arpDiv t) then arp_next (tr_arpeggio t) else tr_arpeggio t) /\
    tr_instrDiv t1 = (if has t FInstr then div_next (tr_instrDiv t) else tr_instrDiv t) /\
    tr_volume t1 = tr_volume t /\ tr_panning t1 = tr_panning t /\ tr_pitch t1 = tr_pitch t /\ tr_samplePitch t1 = tr_samplePitch t /\ tr_waveform t1 = tr_waveform t /\
    tr_rate t1 = tr_rate t /\ tr_master t1 = tr_master t /\ tr_duty t1 = tr_duty t /\ tr_instr t1 = tr_instr t).
  { clear - PL. destruct PL as (? & ? & ? & ? & ? & ? & ? & ->). unfold instr_part.
    assert (B : has (arp_part t) FInstr = has t FInstr) by (unfold arp_part; destruct (has t FArp); reflexivity). rewrite B.
    unfold arp_part. destruct (has t FInstr), (has t FArp); cbn; repeat split; destruct (fires (tr_arpDiv t)); reflexivity. }
  destruct Y as (Y1 & Y2 & Y3 & Y4 & Y5 & Y6 & Y7 & Y8 & Y9 & Y10 & Y11 & Y12). rewrite Y4 in X2. rewrite Y5 in X3.
  destruct X5 as (n & v & p & td & ts & ti & vd & vs & vi & d & X5).
  constructor; try assumption; try (rewrite X5; first [exact Y1|exact Y2|exact Y3|exact Y6|exact Y7|exact Y8|exact Y9|exact Y10|exact Y11|exact Y12|exact F1]).
  - intros HI. destruct (N0 HI) as (<- & _). exact X4.
  - intros HI. destruct (N0 HI) as (_ & <-). rewrite X5. reflexivity.
Qed.

(** ** Many ticks *)

(** How often a divider [n] with counter [c] fires in [k] ticks. *)
Definition fired (d : dstate) (k : nat) : Z := (Z.of_nat k + ds_divider d - 1 - ds_counter d) / ds_divider d.
Fixpoint div_steps (k : nat) (d : dstate) : dstate := match k with O => d | S k => div_steps k (div_next d) end.
Fixpoint arp_steps (k : nat) (a : arpstate) : arpstate := match k with O => a | S k => arp_steps k (arp_next a) end.

Lemma div_next_ok d : div_ok d -> div_ok (div_next d).
Proof.
  intros (A & B). unfold div_ok, div_next, fires. cbn [ds_divider ds_counter]. split; [exact A|]. destruct (Z.eqb_spec (ds_counter d) 0); lia.
Qed.
Lemma fired_nonneg d k : div_ok d -> 0 <= fired d k.
Proof. intros (A & B). unfold fired. apply Z.div_pos; lia. Qed.
Lemma fired_0 d : div_ok d -> fired d 0 = 0.
Proof. intros (A & B). unfold fired. apply Z.div_small. lia. Qed.
Lemma fired_S d k : div_ok d -> fired d (S k) = (if fires d then 1 else 0) + fired (div_next d) k.
Proof.
  intros (A & B). unfold fired, div_next, fires. cbn [ds_divider ds_counter]. set (n := ds_divider d) in *. set (c := ds_counter d) in *.
  destruct (Z.eqb_spec c 0) as [-> |N].
  - replace (Z.of_nat (S k) + n - 1 - 0) with (Z.of_nat k + n - 1 - (n - 1) + 1 * n) by lia. rewrite Z.div_add by lia. lia.
  - rewrite Z.add_0_l. f_equal. lia.
Qed.
Lemma div_steps_ok k : forall d, div_ok d -> div_ok (div_steps k d) /\ ds_divider (div_steps k d) = ds_divider d /\
  ds_counter (div_steps k d) = (ds_counter d - Z.of_nat k) mod ds_divider d.
Proof.
  induction k as [|k IH]; intros d D; cbn [div_steps].
  - split; [exact D|]. split; [reflexivity|]. destruct D as (A & B). rewrite Z.mod_small by lia. lia.
  - destruct (IH _ (div_next_ok d D)) as (H1 & H2 & H3). split; [exact H1|]. split; [exact H2|]. rewrite H3. cbn [ds_divider div_next].
    destruct D as (A & B). unfold div_next, fires. cbn [ds_counter]. destruct (Z.eqb_spec (ds_counter d) 0) as [E|E].
    + replace (ds_divider d - 1 - Z.of_nat k) with (ds_counter d - Z.of_nat (S k) + 1 * ds_divider d) by lia. apply Z.mod_add. lia.
    + f_equal. lia.
Qed.
Lemma div_steps_fires k d : div_ok d -> fires (div_steps k d) = ((Z.of_nat k - ds_counter d) mod ds_divider d =? 0).
Proof.
  intros D. destruct (div_steps_ok k d D) as (_ & _ & E). unfold fires. rewrite E. destruct D as (A & B).
  set (x := ds_counter d - Z.of_nat k). replace (Z.of_nat k - ds_counter d) with (- x) by (unfold x; lia).
  destruct (Z.eqb_spec (x mod ds_divider d) 0) as [E0|N0].
  - rewrite (Z.mod_opp_l_z x (ds_divider d) ltac:(lia) E0). reflexivity.
  - rewrite (Z.mod_opp_l_nz x (ds_divider d) ltac:(lia) N0). pose proof (Z.mod_pos_bound x (ds_divider d) ltac:(lia)). symmetry. apply Z.eqb_neq. lia.
Qed.

Lemma arp_steps_field n : forall a, ar_count (arp_steps n a) = ar_count a /\ ar_notes (arp_steps n a) = ar_notes a.
Proof. induction n as [|n IH]; intros a; cbn [arp_steps]; [auto|]. destruct (IH (arp_next a)) as (-> & ->). auto. Qed.
Lemma arp_steps_at n : forall a, 0 <= ar_offset a < ar_count a ->
  ar_offset (arp_steps n a) = (ar_offset a + Z.of_nat n) mod ar_count a /\
  (1 <= Z.of_nat n -> ar_delta (arp_steps n a) = nth (Z.to_nat ((ar_offset a + Z.of_nat n - 1) mod ar_count a)) (ar_notes a) 0).
Proof.
  induction n as [|n IH]; intros a B; cbn [arp_steps].
  - rewrite Z.mod_small by lia. split; [lia|]. lia.
  - assert (EO : ar_offset (arp_next a) = (ar_offset a + 1) mod ar_count a).
    { unfold arp_next. cbn [ar_offset]. rewrite Z.geb_leb. destruct (Z.leb_spec (ar_count a) (ar_offset a + 1)).
      - replace (ar_offset a + 1) with (1 * ar_count a) by lia. rewrite Z.mod_mul by lia. reflexivity.
      - rewrite Z.mod_small by lia. reflexivity. }
    assert (B' : 0 <= ar_offset (arp_next a) < ar_count (arp_next a)) by (rewrite EO; apply Z.mod_pos_bound; cbn; lia).
    destruct (IH _ B') as (I1 & I2). change (ar_count (arp_next a)) with (ar_count a) in *. change (ar_notes (arp_next a)) with (ar_notes a) in *.
    split.
    + rewrite I1, EO, Zplus_mod_idemp_l. f_equal. lia.
    + intros _. destruct n as [|n].
      * cbn [arp_steps arp_next ar_delta]. do 2 f_equal. rewrite Z.mod_small; lia.
      * rewrite I2 by lia. rewrite EO. do 2 f_equal.
        replace ((ar_offset a + 1) mod ar_count a + Z.of_nat (S n) - 1) with ((ar_offset a + 1) mod ar_count a + Z.of_nat n) by lia.
        rewrite Zplus_mod_idemp_l. f_equal. lia.
Qed.

Definition slides_if (b : bool) (n : Z) (s s' : slide) : Prop := if b then slide_steps (Z.to_nat n) s = Ok s' else s' = s.
Lemma slides_if_S b (x : bool) n s1 s2 s3 : 0 <= n -> steps_if (b && x) s1 s2 -> slides_if b n s2 s3 -> slides_if b ((if x then 1 else 0) + n) s1 s3.
Proof.
  intros N A B. unfold slides_if, steps_if in *. destruct b; cbn [andb] in A; [|congruence]. destruct x.
  - replace (Z.to_nat (1 + n)) with (S (Z.to_nat n)) by lia. cbn [slide_steps]. rewrite A. exact B.
  - subst s2. exact B.
Qed.

Record ticked_by (k : nat) (t t' : track) : Prop := mk_ticked_by {
  tb_flag : forall x, x <> FVolume -> x <> FNote -> x <> FDuty -> has t' x = has t x;
  tb_arpDiv : tr_arpDiv t' = (if has t FArp then div_steps k (tr_arpDiv t) else tr_arpDiv t);
  tb_arp : tr_arpeggio t' = (if has t FArp then arp_steps (Z.to_nat (fired (tr_arpDiv t) k)) (tr_arpeggio t) else tr_arpeggio t);
  tb_instrDiv : tr_instrDiv t' = (if has t FInstr then div_steps k (tr_instrDiv t) else tr_instrDiv t);
  tb_effDiv : tr_effDiv t' = (if any_effect t then div_steps k (tr_effDiv t) else tr_effDiv t);
  tb_volume : slides_if (has t FVolSlide) (fired (tr_effDiv t) k) (tr_volume t) (tr_volume t');
  tb_panning : slides_if (has t FPanSlide) (fired (tr_effDiv t) k) (tr_panning t) (tr_panning t');
  tb_note : has t FInstr = false -> slides_if (has t FPorta) (fired (tr_effDiv t) k) (tr_note t) (tr_note t');
  tb_curNote : has t FInstr = false -> tr_curNote t' = tr_curNote t;
  tb_pitch : tr_pitch t' = tr_pitch t;
  tb_samplePitch : tr_samplePitch t' = tr_samplePitch t;
  tb_waveform : tr_waveform t' = tr_waveform t;
  tb_rate : tr_rate t' = tr_rate t;
  tb_master : tr_master t' = tr_master t;
  tb_duty : tr_duty t' = tr_duty t;
  tb_instr : tr_instr t' = tr_instr t
}.

Lemma slides_if_0 b s d : div_ok d -> slides_if b (fired d 0) s s.
Proof. intros D. rewrite (fired_0 d D). unfold slides_if. destruct b; reflexivity. Qed.

(** Where the effect divider is not run there are no slides. *)
Lemma slides_eff (t t1 : track) b k s1 s2 s3 : div_ok (tr_effDiv t) ->
  tr_effDiv t1 = (if any_effect t then div_next (tr_effDiv t) else tr_effDiv t) -> (b = true -> any_effect t = true) ->
  steps_if (b && fires (tr_effDiv t)) s1 s2 -> slides_if b (fired (tr_effDiv t1) k) s2 s3 -> slides_if b (fired (tr_effDiv t) (S k)) s1 s3.
Proof.
  intros D E HB A B. rewrite (fired_S _ _ D). destruct b; [|exact (slides_if_S false (fires (tr_effDiv t)) _ _ _ _ (fired_nonneg _ k (div_next_ok _ D)) A B)].
  rewrite (HB eq_refl) in E. rewrite E in B. apply (slides_if_S true _ _ _ s2); [apply fired_nonneg, div_next_ok, D|exact A|exact B].
Qed.

Lemma ticks_ticked fuel k : forall t, track_ok fuel t -> exists t', ticks fuel k t = Ok t' /\ track_ok fuel t' /\ ticked_by k t t'.
Proof.
  induction k as [|k IH]; intros t H; cbn [ticks].
  - exists t. split; [reflexivity|]. split; [exact H|]. constructor; try reflexivity.
    + destruct (has t FArp); reflexivity.
    + rewrite (fired_0 _ (tk_arpDiv _ _ H)). destruct (has t FArp); reflexivity.
    + destruct (has t FInstr); reflexivity.
    + destruct (any_effect t); reflexivity.
    + apply slides_if_0, (tk_effDiv _ _ H).
    + apply slides_if_0, (tk_effDiv _ _ H).
    + intros _. apply slides_if_0, (tk_effDiv _ _ H).
  - destruct (tick_ticked fuel t H) as (t1 & -> & H1 & T1). cbn [bind]. destruct (IH t1 H1) as (t' & E & H' & T'). exists t'. split; [exact E|]. split; [exact H'|].
    destruct T1 as [F1 A1 A2 A3 A4 A5 A6 A7 A8 A9 A10 A11 A12 A13 A14 A15]. destruct T' as [F2 B1 B2 B3 B4 B5 B6 B7 B8 B9 B10 B11 B12 B13 B14 B15].
    assert (EE : any_effect t1 = any_effect t) by (unfold any_effect; rewrite !F1 by discriminate; reflexivity).
    rewrite EE in *. rewrite !F1 in * by discriminate. constructor; try congruence.
    + intros x X Y Z. rewrite F2, F1 by assumption. reflexivity.
    + rewrite B1, A1. destruct (has t FArp); reflexivity.
    + rewrite B2, A2, A1. destruct (has t FArp); [|reflexivity]. rewrite (fired_S _ _ (tk_arpDiv _ _ H)).
      pose proof (fired_nonneg _ k (div_next_ok _ (tk_arpDiv _ _ H))). cbn [andb]. destruct (fires (tr_arpDiv t)); [|reflexivity].
      replace (Z.to_nat (1 + fired (div_next (tr_arpDiv t)) k)) with (S (Z.to_nat (fired (div_next (tr_arpDiv t)) k))) by lia. reflexivity.
    + rewrite B3, A3. destruct (has t FInstr); reflexivity.
    + rewrite B4, A4. destruct (any_effect t); reflexivity.
    + apply (slides_eff t t1 _ k _ (tr_volume t1) _ (tk_effDiv _ _ H) A4); [|exact A5|exact B5]. intros X. unfold any_effect. rewrite X, orb_true_r. reflexivity.
    + apply (slides_eff t t1 _ k _ (tr_panning t1) _ (tk_effDiv _ _ H) A4); [|exact A6|exact B6]. intros X. unfold any_effect. rewrite X, !orb_true_r. reflexivity.
    + intros HI. apply (slides_eff t t1 _ k _ (tr_note t1) _ (tk_effDiv _ _ H) A4); [|exact (A7 HI)|exact (B7 HI)]. intros X. unfold any_effect. rewrite X. reflexivity.
    + intros HI. rewrite B8, A8 by exact HI. reflexivity.
Qed.
