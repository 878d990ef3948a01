(** Tracks which hold a note: what they add to the channels of a context, and what is read. *)
From Verif Require Import CInt CIntFacts TimeModel Kernels BufferModel BufferSpec BufferProofs BufferProofs2 DataModel UnitModel UnitSpec UnitProofs UnitProofs2 UnitProofs3 UnitProofs4
  UnitInv UnitInv2 UnitInv3 UnitProofs5 TrackModel TrackSpec TrackTime UnitShift MixSpec MixProofs ContextModel ContextSpec ContextSame ContextShift ContextRun ContextChunk ContextGen ContextGen2
  SafeSpec TrackQuiet UnitQuiet SafeBuffer SafeRun SafeLoop PropertiesPeriod PlainModel PlainProofs.
Ltac Zify.zify_post_hook ::= idtac.

(** Neither arpeggio nor instrument nor effect: a tick only passes changes on to the unit. *)
Definition plainly (t : track) : Prop := has t FArp = false /\ has t FInstr = false /\ any_effect t = false.
(** Nothing is to be passed on. *)
Definition settled (t : track) : Prop := has t FVolume = false /\ has t FNote = false /\ has t FDuty = false.

(** Callbacks call no functions of tracks. *)
Definition env_still (e : env) : Prop := forall id k t, e_calls e id k t = [] /\ e_next e id k t <= BK_TIME_MAX.

Lemma still_calm fuel vol e : env_still e -> env_calm fuel vol e.
Proof. intros H id k t. destruct (H id k t) as (-> & B). split; [constructor|exact B]. Qed.
Lemma still_plain e : env_still e -> env_plain e.
Proof. intros H id k t. destruct (H id k t) as (-> & B). split; [constructor|exact B]. Qed.

Lemma settled_update t : settled t -> BKTrackUpdateUnit t = Ok t.
Proof. intros (A & B & C). unfold BKTrackUpdateUnit. rewrite A. cbn [bind]. rewrite B. cbn [bind]. rewrite C. reflexivity. Qed.

Lemma no_flags t : any_effect t = false -> BKTrackEffectUpdateFlags t = t.
Proof.
  intros A. unfold any_effect in A. repeat (apply orb_false_elim in A; destruct A as (A & ?)). unfold BKTrackEffectUpdateFlags. cbv zeta. rewrite A.
  repeat match goal with H : has t _ = false |- _ => rewrite H; clear H end. reflexivity.
Qed.

Lemma plain_tick fuel t t' : plainly t -> BKTrackUpdateUnit t = Ok t' -> plainly t' -> BKTrackTick fuel t = Ok t'.
Proof.
  intros (P1 & P2 & P3) E (_ & _ & Q3). unfold BKTrackTick. cbv zeta. rewrite no_flags by exact P3. rewrite P1. cbn [bind]. rewrite P2. cbn [bind]. rewrite E. cbn [bind]. rewrite Q3. reflexivity.
Qed.

Lemma at_end n u now h v e : at_time n u now h v -> 0 <= e -> now + e <= h -> at_time n u (now + e) h (BKUnitEnd v e).
Proof.
  intros [S T CY PE CX VO H ST] E0 EH. pose proof (wf_time v (proj1 S)) as WT.
  assert (TU : un_time (BKUnitEnd v e) = un_time v - e) by (unfold BKUnitEnd; cbn [un_time set_time]; apply u32_id; lia).
  split; try assumption; [apply end_safe, S|lia|]. intros A. destruct (ST A) as (TM & PH & LP). cbv zeta in *. split; [lia|]. split; assumption.
Qed.

(** The track [t] plays what the unit [o] has become. *)
Definition held (n : Z) (o : bkunit) (now h : Z) (t : track) : Prop :=
  plainly t /\ exists t', BKTrackUpdateUnit t = Ok t' /\ plainly t' /\ settled t' /\ at_time n o now h (tr_unit t').

Lemma held_settled n o now h t : plainly t -> settled t -> at_time n o now h (tr_unit t) -> held n o now h t.
Proof. intros P S A. split; [exact P|]. exists t. split; [apply settled_update, S|]. split; [exact P|]. split; assumption. Qed.

Lemma held_tick fuel n o now h t : held n o now h t -> exists t', BKTrackTick fuel t = Ok t' /\ held n o now h t'.
Proof. intros (P & t' & E & P' & S & A). exists t'. split; [apply plain_tick; assumption|]. apply held_settled; assumption. Qed.

Lemma held_run fuel n o now h t e : held n o now h t -> h <= now + e -> 0 <= e -> e + 1048576 < 2147483648 -> e + 1000 <= Z.of_nat fuel ->
  exists t' l, BKTrackRun fuel t e = Ok (t', l) /\ held n o now (now + e) t' /\ length l = Z.to_nat n /\ e <= un_time (tr_unit t') < 4294967296 /\ Forall (timed 0 e) l /\
    (forall k, (k < Z.to_nat n)%nat -> wave_pulses o k (now + e) = wave_pulses o k h ++ map (fun tp => (now + fst tp, snd tp)) (nth k l [])).
Proof.
  intros (P & t' & E & P' & S & A) H1 H2 H3 H4. destruct (voice_run fuel n o now h (tr_unit t') e A H1 H2 H3 H4) as (v & l & R & A' & L & T & F & W).
  exists (t_unit t' v), l. unfold BKTrackRun. rewrite E. cbn [bind]. rewrite R. cbn [bind]. split; [reflexivity|]. split; [apply held_settled; assumption|].
  split; [exact L|]. split; [exact T|]. split; [exact F|exact W].
Qed.

Lemma has_time x t k : has (tm x t) k = has t k.
Proof. reflexivity. Qed.

Lemma held_shift n o now h t e : held n o now h t -> 0 <= e -> now + e <= h -> held n o (now + e) h (sh (- e) t).
Proof.
  intros (P & t' & E & P' & S & A) E0 EH. split; [exact P|]. pose proof (update_time _ _ E) as TM. exists (sh (- e) t'). split.
  { unfold sh. rewrite (update_tm (un_time (tr_unit t) + - e) (tm (un_time (tr_unit t) + - e) t) t eq_refl), E. cbn [rmap]. rewrite TM. reflexivity. }
  split; [exact P'|]. split; [exact S|]. pose proof (at_end n o now h _ e A E0 EH) as B. unfold BKUnitEnd in B. rewrite u32_id in B.
  - exact B.
  - pose proof (wf_time _ (proj1 (at_safe _ _ _ _ _ A))). pose proof (at_h _ _ _ _ _ A). lia.
Qed.

Lemma tick_tracks_held fuel n us now h ts : Forall2 (fun o it => held n o now h (snd it)) us ts ->
  exists ts', tick_tracks fuel ts = Ok ts' /\ Forall2 (fun o it => held n o now h (snd it)) us ts'.
Proof.
  induction 1 as [|o [i t] us ts H F (ts' & E & IH)]; cbn [tick_tracks]; [eexists; split; [reflexivity|constructor]|]. cbn [snd] in H.
  destruct (held_tick fuel _ _ _ _ _ H) as (t' & -> & H'). cbn [bind]. rewrite E. cbn [bind]. eexists. split; [reflexivity|]. constructor; assumption.
Qed.

Lemma clock_tick_held e fuel n us now h k k' ts : env_still e -> BKClockTick e fuel [] k = Ok ([], k') -> Forall2 (fun o it => held n o now h (snd it)) us ts ->
  exists ts', BKClockTick e fuel ts k = Ok (ts', k') /\ Forall2 (fun o it => held n o now h (snd it)) us ts'.
Proof.
  intros S E H. unfold BKClockTick in *. destruct (S (k_id k) (k_counter k) (k_time k)) as (SE & _). rewrite SE in *. cbn [call_tracks bind] in *.
  destruct (BKTimeIsEqual (k_time k) (k_next k)); [|exists ts; split; [congruence|exact H]].
  destruct (k_id k =? 0).
  - destruct (tick_tracks_held fuel _ _ _ _ _ H) as (ts' & -> & H'). exists ts'. split; [|exact H']. cbn [tick_tracks bind] in *. cbv zeta in *.
    match type of E with bind ?x _ = _ => destruct x as [[per nx]|] end; [|discriminate]. cbn [bind] in *. congruence.
  - exists ts. split; [|exact H]. cbn [bind] in *. cbv zeta in *.
    match type of E with bind ?x _ = _ => destruct x as [[per nx]|] end; [|discriminate]. cbn [bind] in *. congruence.
Qed.

Lemma clock_tick_none e fuel k ts k' : env_still e -> BKClockTick e fuel [] k = Ok (ts, k') -> ts = [].
Proof.
  intros S E. unfold BKClockTick in *. destruct (S (k_id k) (k_counter k) (k_time k)) as (SE & _). rewrite SE in *. cbn [call_tracks bind] in *.
  destruct (BKTimeIsEqual (k_time k) (k_next k)); [|congruence].
  destruct (k_id k =? 0); cbn [tick_tracks bind] in *; cbv zeta in *; match type of E with bind ?x _ = _ => destruct x as [[per nx]|] end; cbn [bind] in *; congruence.
Qed.

Lemma tick_clocks_held e fuel n us now h : env_still e -> forall ks nt ts0 ks' nt' ts, tick_clocks e fuel [] ks nt = Ok (ts0, ks', nt') -> Forall2 (fun o it => held n o now h (snd it)) us ts ->
  exists ts', tick_clocks e fuel ts ks nt = Ok (ts', ks', nt') /\ Forall2 (fun o it => held n o now h (snd it)) us ts'.
Proof.
  intros S. induction ks as [|k ks IH]; intros nt ts0 ks' nt' ts E H; cbn [tick_clocks] in *; [exists ts; split; [congruence|exact H]|].
  binv E r E1. destruct r as [t1 k1]. pose proof (clock_tick_none _ _ _ _ _ S E1) as ->. cbv zeta in E. binv E r E2. destruct r as [[ts2 ks2] nt2].
  destruct (clock_tick_held e fuel n us now h k k1 ts S E1 H) as (ts1 & -> & H1). cbn [bind]. cbv zeta.
  destruct (IH _ _ _ _ ts1 E2 H1) as (ts3 & -> & H3). cbn [bind]. exists ts3. split; [congruence|exact H3].
Qed.

Lemma advance_held e fuel n us now h c : env_still e -> Forall (clock_calm (cx_current c)) (cx_clocks c) -> cx_clocks c <> [] -> 0 <= cx_current c <= MAX_CLOCK ->
  Forall2 (fun o it => held n o now h (snd it)) us (cx_tracks c) ->
  exists c' q, BKClocksAdvance e fuel c = Ok (c', q) /\ Forall2 (fun o it => held n o now h (snd it)) us (cx_tracks c') /\ Forall (clock_calm (cx_current c')) (cx_clocks c').
Proof.
  intros S CC NE B H. destruct (advance_calm fuel 1 (fun _ => 0) e (still_calm _ _ _ S) [] [] 0 [] (x_tracks c []) (Forall_nil _) (Forall2_nil _) CC NE B) as (c' & q & E & _ & C').
  unfold BKClocksAdvance in *. cbn [x_tracks cx_tracks cx_clocks cx_current] in E. binv E r E1. destruct r as [[ts0 ks] nt].
  destruct (tick_clocks_held e fuel n us now h S _ _ _ _ _ _ E1 H) as (ts & -> & H'). cbn [bind]. binv E dt E2. rewrite E2. cbn [bind]. cbv zeta in *.
  binv E ks' E3. rewrite E3. cbn [bind]. binv E t E4. rewrite E4. cbn [bind]. eexists _, _. split; [reflexivity|].
  match type of E with Ok (?a, ?b) = _ => assert (c' = a) as -> by congruence end. cbn [x_current x_clocks x_tracks cx_tracks cx_clocks cx_current] in *. split; assumption.
Qed.

(** ** In a context *)

Section Held.
Variable K : list (list Z).
Variable gain : Z.
Hypothesis HK : kernel_ok K.
Hypothesis HG : gain_ok K gain.
Variable fuel : nat.
Hypothesis HF : 1789570706 <= Z.of_nat fuel.
Variable n : Z.
Hypothesis HN : 0 < n.
Variable us : list bkunit.
Hypothesis HU : Forall (fun u => startable n u /\ un_time u = 0) us.
Let g := map unit_source us.
Hypothesis HS : soft K gain g.
Hypothesis HT : total g <= 16383.
Variable e : env.
Hypothesis HE : env_still e.
Let U (s : Z) : bkunit := nth (Z.to_nat s) us unit0.

Lemma run_tracks_held rd t0 time : 0 <= rd -> 0 <= t0 <= time -> time <= 1789569706 -> let now := rd * 1048576 in forall ts s Ps chs, 0 <= s -> s + Z.of_nat (length ts) = Z.of_nat (length us) ->
  Forall2 (fun o it => held n o now (now + t0) (snd it)) (skipn (Z.to_nat s) us) ts -> filled n us (fun s' => if s' <? s then now + time else now + t0) Ps -> Forall2 (chan K rd) Ps chs ->
  exists ts' chs' Ps', run_tracks fuel ts chs time = Ok (ts', chs') /\ Forall2 (fun o it => held n o now (now + time) (snd it)) (skipn (Z.to_nat s) us) ts' /\
    filled n us (fun _ => now + time) Ps' /\ Forall2 (chan K rd) Ps' chs'.
Proof.
  intros R T0 E now. induction ts as [|[i t] ts IH]; intros s Ps chs S0 SL V FI CH; cbn [run_tracks].
  - exists [], chs, Ps. split; [reflexivity|]. split; [inversion V; constructor|]. split; [|exact CH].
    eapply filled_ext; [exact FI|]. intros s' I'. apply num in I'. cbn [length] in SL. cbv beta. replace (s' <? s) with true by lia. reflexivity.
  - inversion V as [|o x r y V1 V2 EQ]; subst x y. symmetry in EQ. destruct (skipn_step fuel us unit0 _ _ _ EQ) as (N1 & N2 & N3). cbn [snd] in V1.
    destruct (held_run fuel n o now (now + t0) t time V1 ltac:(lia) ltac:(lia) ltac:(lia) ltac:(lia)) as (t' & l & -> & V' & LL & TE & TM & W). cbn [bind].
    pose proof FI as (LP & FI'). assert (UO : U s = o) by exact N1. assert (SI : In s (nums g)) by (apply num; lia).
    assert (NX : filled n us (fun s' => if s' <? s + 1 then now + time else now + t0) (ext s (rd * 1048576) Ps l)).
    { split; [rewrite ext_length; congruence|]. intros k HKk. destruct (FI' k HKk) as (A & B). rewrite ext_nth by congruence. split.
      - intros x X. apply in_app_or in X. destruct X as [X|X]; [apply A, X|]. unfold lab in X. apply in_map_iff in X. destruct X as (? & <- & _). exact SI.
      - intros s' I'. rewrite from_app, (B s' I'). destruct (Z.eq_dec s' s) as [-> |NE].
        + rewrite from_lab. cbv beta. replace (s <? s) with false by lia. replace (s <? s + 1) with true by lia. change (nth (Z.to_nat s) us unit0) with (U s). rewrite UO. symmetry. apply W. exact HKk.
        + rewrite from_lab_other by congruence. rewrite app_nil_r. replace (s' <? s + 1) with (s' <? s) by lia. reflexivity. }
    pose proof (filled_hists fuel n HN us HU _ _ NX) as HH.
    destruct (mix_safe K gain fuel g rd s time (un_time (tr_unit t')) HS R ltac:(lia) ltac:(lia) TE Ps chs CH l 0%nat ltac:(congruence) HH TM) as (chs1 & EM & C1).
    { intros k tt x X. destruct (Nat.lt_ge_cases k (Z.to_nat n)) as [Q|Q]; [|rewrite nth_overflow in X by lia; destruct X].
      specialize (W k Q). destruct (U_ok fuel n us HU s ltac:(lia)) as (S1 & S2). cbv beta in S1, S2. change (nth (Z.to_nat s) us unit0) with (U s) in S1, S2. rewrite UO in S1, S2. pose proof (wave_levels n o k (now + time) S1 S2) as LV. rewrite W in LV.
      pose proof (levels_move (- loudest o - nth k (un_lastPulse o) 0) (loudest o - nth k (un_lastPulse o) 0) (- nth k (un_lastPulse o) 0) 0 _ _ _ LV) as LM.
      replace (- loudest o - nth k (un_lastPulse o) 0 - - nth k (un_lastPulse o) 0) with (- loudest o) in LM by lia.
      replace (loudest o - nth k (un_lastPulse o) 0 - - nth k (un_lastPulse o) 0) with (loudest o) in LM by lia.
      pose proof (levels_small (loudest o) _ (0 + 0) (0 - - nth k (un_lastPulse o) 0) ltac:(pose proof (loudest_last o k); lia) LM (0 + (now + tt)) x) as SM.
      assert (CT : loudest o <= total g).
      { pose proof (cap_total g s (proj1 HS)) as CT. unfold cap in CT. assert (SU : nth (Z.to_nat s) g no_source = unit_source (U s)) by (apply (source_U fuel); lia). rewrite SU, UO in CT. exact CT. }
      unfold is_s16. assert (IN : In (0 + (now + tt), x) (map (fun tp => (0 + fst tp, snd tp)) (wave_pulses o k (now + t0) ++ map (fun tp => (now + fst tp, snd tp)) (nth k l [])))).
      { apply in_map_iff. exists (now + tt, x). split; [reflexivity|]. apply in_or_app. right. apply in_map_iff. exists (tt, x). split; [reflexivity|exact X]. }
      specialize (SM IN). lia. }
    rewrite EM. cbn [bind].
    destruct (IH (s + 1) (ext s (rd * 1048576) Ps l) chs1) as (ts' & chs' & Ps' & -> & I1 & I2 & I3); [lia|cbn [length] in SL; lia|replace (Z.to_nat (s + 1)) with (S (Z.to_nat s)) by lia; rewrite N2; exact V2|exact NX|exact C1|].
    cbn [bind]. eexists _, _, Ps'. split; [reflexivity|]. split; [|split; assumption].
    constructor; [exact V'|]. replace (Z.to_nat (s + 1)) with (S (Z.to_nat s)) in I1 by lia. rewrite N2 in I1. exact I1.
Qed.

(** A context which plays the tracks, [rd] frames having been read. *)
Record sounding (rd time : Z) (Ps : list ledger) (c : context) : Prop := {
  so_tracks : Forall2 (fun o it => held n o (rd * 1048576) (rd * 1048576 + time) (snd it)) us (cx_tracks c);
  so_filled : filled n us (fun _ => rd * 1048576 + time) Ps;
  so_chans : Forall2 (chan K rd) Ps (cx_channels c);
  so_clocks : Forall (clock_calm (cx_current c)) (cx_clocks c);
  so_rd : 0 <= rd;
  so_now : cx_current c = rd * 1048576 + time }.

Lemma step_held rd time Ps c : sounding rd time Ps c -> live time c -> 0 <= time <= 1073741824 -> cx_current c <= MAX_CLOCK ->
  exists c1 q c2 Ps', BKClocksAdvance e fuel c = Ok (c1, q) /\ run_units fuel c1 (time + q) = Ok c2 /\ sounding rd (time + q) Ps' c2.
Proof.
  intros [S1 S2 S3 S4 S5 S6] [L1 L2 L3 L4] T M. pose proof (still_plain e HE) as EP.
  destruct (advance_held e fuel n us _ _ c HE S4 L1 ltac:(lia) S1) as (c1 & q & E & V1 & C1).
  destruct (advance_fine e fuel c c1 q EP L1 L2 E) as (A1 & A2 & A3 & A4 & A5 & A6 & A7 & _).
  assert (LU : length us = length (cx_tracks c1)) by (clear - V1; induction V1; cbn [length]; congruence).
  exists c1, q. unfold run_units.
  destruct (run_tracks_held rd time (time + q) S5 ltac:(lia) ltac:(lia) (cx_tracks c1) 0 Ps (cx_channels c1) ltac:(lia) ltac:(lia)) as (ts & chs & Ps' & -> & R1 & R2 & R3).
  { exact V1. }
  { eapply filled_ext; [exact S2|]. intros s I'. apply num in I'. cbv beta. replace (s <? 0) with false by lia. reflexivity. }
  { rewrite A7. exact S3. }
  cbn [bind]. eexists _, Ps'. split; [exact E|]. split; [reflexivity|]. split; cbn [x_channels x_tracks cx_current cx_tracks cx_channels cx_clocks]; try assumption. lia.
Qed.

Lemma run_loop_held rd endTime : endTime <= 1073741824 -> forall nn c time Ps, sounding rd time Ps c -> live time c -> 0 <= time -> rd * 1048576 + endTime <= MAX_CLOCK ->
  endTime - time < Z.of_nat nn -> exists c' t' Ps', run_loop nn e fuel c time endTime = Ok (c', t') /\ sounding rd t' Ps' c'.
Proof.
  intros B. induction nn as [|nn IH]; intros c time Ps S L T M N.
  { cbn [run_loop]. destruct (Z.ltb_spec time endTime); [lia|]. eauto. }
  cbn [run_loop]. destruct (Z.ltb_spec time endTime) as [Q|Q]; [|eauto].
  pose proof (so_now _ _ _ _ S) as NW.
  destruct (step_held _ _ _ _ S L ltac:(lia) ltac:(lia)) as (c1 & q & c2 & Ps' & E1 & E2 & S2).
  destruct (step_live e fuel c time c1 q c2 (still_plain e HE) L ltac:(lia) E1 E2) as (Q1 & L2 & _).
  rewrite E1. cbn [bind]. cbv zeta. rewrite u32_id by lia. rewrite E2. cbn [bind]. apply (IH c2 (time + q) Ps' S2 L2); lia.
Qed.

Lemma chunk_held rd Ps c k nn : sounding rd (cx_delta c) Ps c -> ready c -> cx_tracks c <> [] -> 0 <= k <= 1024 -> (rd + k) * 1048576 <= MAX_CLOCK ->
  1073741824 < Z.of_nat nn -> exists c' ss Ps', chunk nn e fuel c k = Ok (c', k, ss) /\ sounding (rd + k) (cx_delta c') Ps' c' /\ ready c' /\ cx_tracks c' <> [] /\
    length ss = Z.to_nat n /\ forall j, (j < Z.to_nat n)%nat -> nth j ss [] = tune K us j rd k.
Proof.
  intros S R NT KB M N. pose proof (still_plain e HE) as EP. pose proof (ready_live _ R) as L. pose proof (rd_delta _ R) as DB.
  destruct (run_loop_held rd (k * 1048576) ltac:(lia) nn c (cx_delta c) Ps S L ltac:(lia) ltac:(lia) ltac:(lia)) as (c1 & t1 & Ps' & E & S').
  destruct (run_loop_live e fuel (k * 1048576) EP ltac:(lia) _ _ _ _ _ L ltac:(lia) E) as ([_ _ V3 V4] & V5 & V6 & V7 & (V8 & V9 & V10 & _) & V11 & V12 & _).
  specialize (V12 NT (rd_full _ R)).
  assert (C : Forall (fun b => k <= b_capacity b) (cx_channels c1)).
  { unfold full in V12. eapply Forall_impl; [|exact V12]. cbn. intros b Hb. pose proof (div_mono _ _ V6). rewrite Z.div_mul in * by lia. lia. }
  destruct S' as [S1 S2 S3 S4 S5 S6].
  destruct (read_safe K gain HK HG fuel g rd k HS S5 ltac:(lia) Ps' _ S3 0%nat (filled_hists fuel n HN us HU _ _ S2) C) as (chE & ss & RL & CH).
  set (c' := mk_context (cx_rate c1) (cx_period c1) (cx_current c1) (t1 - k * 1048576) (cx_clocks c1) (shs (- (k * 1048576)) (cx_tracks c1)) chE).
  assert (E' : chunk nn e fuel c k = Ok (c', k, ss)).
  { apply (chunk_spec e fuel c k EP R NT KB). split; [reflexivity|]. exists (cx_channels c1). split; [|exact RL]. rewrite E. f_equal. f_equal; [|cbn [c' cx_delta]; lia].
    unfold late, c'. cbn [cx_rate cx_period cx_current cx_delta cx_clocks cx_tracks]. rewrite shs_back, <- V9. destruct c1; reflexivity. }
  exists c', ss, Ps'. split; [exact E'|]. destruct (chunk_able e fuel EP c k nn c' k ss (conj R NT) KB E') as ((R' & NT') & _). split; [|split; [exact R'|split; [exact NT'|]]].
  - split; unfold c'; cbn [cx_current cx_delta cx_clocks cx_tracks cx_channels]; try assumption; try lia.
    + replace ((rd + k) * 1048576) with (rd * 1048576 + k * 1048576) by lia. replace (rd * 1048576 + k * 1048576 + (t1 - k * 1048576)) with (rd * 1048576 + t1) by lia.
      unfold shs. clear - S1 V6 KB. induction S1 as [|o it us' ts H S1 IH]; cbn [map]; constructor; [|exact IH]. cbn [snd]. apply held_shift; [exact H|lia|lia].
    + replace ((rd + k) * 1048576 + (t1 - k * 1048576)) with (rd * 1048576 + t1) by lia. exact S2.
  - apply (rels_tune K fuel n HN us HU (rd * 1048576 + t1) rd k Ps' (cx_channels c1) ss chE); try assumption; lia.
Qed.

Lemma generate_held nn : 1073741824 < Z.of_nat nn -> forall m Ps rd c rem w, sounding rd (cx_delta c) Ps c -> ready c -> cx_tracks c <> [] ->
  0 <= rem < 4294967296 -> rem <= 1024 * Z.of_nat m -> m <> O -> (rd + rem) * 1048576 <= MAX_CLOCK ->
  exists c' w' ss Ps', generate_loop m nn e fuel c rem w = Ok (c', w', ss) /\ sounding (rd + rem) (cx_delta c') Ps' c' /\ ready c' /\ cx_tracks c' <> [] /\
    length ss = Z.to_nat n /\ forall j, (j < Z.to_nat n)%nat -> nth j ss [] = tune K us j rd rem.
Proof.
  intros N. induction m as [|m IH]; intros Ps rd c rem w S R NT B L M0 MC; [congruence|]. rewrite generate_chunk. cbv zeta.
  set (k := if rem >? BK_MAX_GENERATE_SAMPLES then BK_MAX_GENERATE_SAMPLES else rem).
  assert (KB : k = Z.min rem 1024) by (unfold k, BK_MAX_GENERATE_SAMPLES; destruct (Z.gtb_spec rem 1024); lia).
  pose proof (so_rd _ _ _ _ S) as R0.
  destruct (chunk_held rd Ps c k nn S R NT ltac:(lia) ltac:(lia) N) as (c1 & ss & Ps1 & -> & S1 & R1 & NT1 & L1 & T1). cbn [bind].
  replace (if k =? 0 then rem else k) with k by (destruct (Z.eqb_spec k 0); lia). rewrite u32_id by lia.
  destruct (Z.eqb_spec (rem - k) 0) as [Q|Q]; cbn [negb].
  - replace rem with k by lia. eexists _, _, _, _. split; [reflexivity|]. split; [exact S1|]. split; [exact R1|]. split; [exact NT1|]. split; assumption.
  - destruct (IH Ps1 (rd + k) c1 (rem - k) (u32 (w + k)) S1 R1 NT1 ltac:(lia) ltac:(lia) ltac:(lia) ltac:(lia)) as (c' & w' & ss' & Ps' & -> & S2 & R2 & NT2 & L2 & T2). cbn [bind].
    eexists _, _, _, Ps'. split; [reflexivity|]. split; [replace (rd + rem) with (rd + k + (rem - k)) by lia; exact S2|]. split; [exact R2|]. split; [exact NT2|].
    assert (LJ : length ss' = length ss) by congruence. split; [rewrite join_length by congruence; congruence|]. intros j HJ. rewrite join_nth by congruence. rewrite T1, T2 by exact HJ.
    replace rem with (k + (rem - k)) at 2 by lia. symmetry. apply (tune_split K fuel); lia.
Qed.

(** A list of requests. *)
Lemma requests_held m nn : 1073741824 < Z.of_nat nn -> m <> O -> forall sizes rd Ps c, sounding rd (cx_delta c) Ps c -> ready c -> cx_tracks c <> [] ->
  Forall (fun s => 0 <= s < 4294967296 /\ s <= 1024 * Z.of_nat m) sizes -> (rd + zsum sizes) * 1048576 <= MAX_CLOCK ->
  exists c' fs, xruns m nn e fuel c (map XGenerate sizes) = Ok (c', fs) /\ Forall (fun f => length f = Z.to_nat n) fs /\
    forall j, (j < Z.to_nat n)%nat -> concat (map (fun f => nth j f []) fs) = tune K us j rd (zsum sizes).
Proof.
  intros N M0. induction sizes as [|s sizes IH]; intros rd Ps c S R NT F MC; cbn [map xruns].
  - exists c, []. split; [reflexivity|]. split; [constructor|]. intros j HJ. reflexivity.
  - inversion F as [|x y (F1 & F2) F3]; subst. assert (ZS : zsum (s :: sizes) = s + zsum sizes) by reflexivity.
    assert (S0 : 0 <= zsum sizes) by (clear - F3; unfold zsum; induction F3 as [|? ? (? & _)]; cbn [fold_right]; lia). pose proof (so_rd _ _ _ _ S) as RD.
    cbn [xstep]. unfold BKContextGenerate. rewrite u32_id by lia.
    destruct (generate_held nn N m Ps rd c s 0 S R NT F1 F2 M0 ltac:(lia)) as (c1 & w & ss & Ps1 & -> & S1 & R1 & NT1 & L1 & T1). cbn [bind].
    destruct (IH (rd + s) Ps1 c1 S1 R1 NT1 F3 ltac:(lia)) as (c2 & fs & -> & L2 & T2). cbn [bind]. eexists _, _. split; [reflexivity|]. split; [constructor; assumption|].
    intros j HJ. cbn [map concat]. rewrite T1, T2 by exact HJ. rewrite ZS. symmetry. apply (tune_split K fuel); lia.
Qed.
End Held.
