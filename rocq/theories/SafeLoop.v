(** Quiet tracks in a context: generating frames does not fail. *)
From Verif Require Import CInt CIntFacts TimeModel Kernels BufferModel BufferSpec BufferProofs BufferProofs2 DataModel UnitModel UnitSpec UnitProofs UnitProofs2 UnitProofs3 UnitProofs4
  UnitProofs5 UnitInv TrackModel TrackSpec TrackInv TrackProofs TrackProofs6 TrackTicks TrackTime UnitShift MixSpec MixProofs ContextModel ContextSpec ContextSame ContextShift ContextRun
  ContextChunk ContextGen ContextGen2 SafeSpec TrackQuiet UnitQuiet SafeBuffer SafeRun.
Ltac Zify.zify_post_hook ::= idtac.

Lemma cap_total g s : Forall source_ok g -> cap g s <= total g.
Proof.
  intros F. unfold cap, total, zsum. generalize (Z.to_nat s). assert (P : forall o, source_ok o -> 0 <= so_cap o) by (intros o H; specialize (H 0%nat); lia).
  assert (T : forall l, Forall source_ok l -> 0 <= fold_right Z.add 0 (map so_cap l)).
  { induction 1 as [|o l H F' IH]; cbn; [lia|]. specialize (P o H). lia. }
  induction F as [|o g H F IH]; intros [|n]; cbn; try lia.
  - specialize (T g F). lia.
  - specialize (P o H). specialize (IH n). cbn in IH. lia.
Qed.

Section Safe.
Variable K : list (list Z).
Variable gain : Z.
Hypothesis HK : kernel_ok K.
Hypothesis HG : gain_ok K gain.
Variable fuel : nat.
Variable nc : Z.
Variable vol : Z -> Z.
Variable e : env.
Hypothesis EC : env_calm fuel vol e.
Hypothesis HF : 1789570706 <= Z.of_nat fuel.

Lemma mix_safe g rd s e1 time : soft K gain g -> 0 <= rd -> 0 <= e1 -> e1 + 1048576 < 4294967296 -> e1 <= time < 4294967296 ->
  forall Ps chs, Forall2 (chan K rd) Ps chs -> forall ls k0, length ls = length Ps -> (forall k, hist g (k0 + k)%nat (nth k (ext s (rd * 1048576) Ps ls) [])) ->
  Forall (timed 0 e1) ls -> (forall k t p, In (t, p) (nth k ls []) -> is_s16 p) ->
  exists chs', mix_channels chs ls time = Ok chs' /\ Forall2 (chan K rd) (ext s (rd * 1048576) Ps ls) chs'.
Proof.
  intros SF R E0 E1 T Ps chs C. induction C as [|P b Ps chs C1 C IH]; intros [|l ls] k0 L H TM HP; cbn in L; try congruence.
  { eexists. split; [reflexivity|constructor]. }
  inversion TM as [|x y T1 T2]; subst. cbn [mix_channels hd tl ext]. pose proof (H 0%nat) as H0. cbn [ext nth] in H0.
  destruct (chan_mix K gain g _ rd P b s l e1 SF C1 R H0 T1 E1 E0 (HP 0%nat)) as (b1 & -> & B1). cbn [bind].
  destruct (IH ls (S k0)) as (chs' & -> & C'); [congruence|intros k; specialize (H (S k)); cbn [ext nth] in H; replace (S k0 + k)%nat with (k0 + S k)%nat by lia; exact H|exact T2|intros k; apply (HP (S k))|].
  cbn [bind]. eexists. split; [reflexivity|]. constructor; [apply B1, T|exact C'].
Qed.

Lemma run_tracks_safe g rd t0 time : soft K gain g -> total g <= 16383 -> 0 <= rd -> 0 <= t0 <= time -> time <= 1789569706 ->
  forall ts own Ps chs, NoDup own -> voices fuel nc vol g Ps (rd * 1048576 + t0) own ts -> good t0 ts -> hists g Ps -> length Ps = Z.to_nat nc -> Forall2 (chan K rd) Ps chs ->
  exists ts' chs' Ps', run_tracks fuel ts chs time = Ok (ts', chs') /\ voices fuel nc vol g Ps' (rd * 1048576 + time) own ts' /\ hists g Ps' /\ length Ps' = Z.to_nat nc /\
    Forall2 (chan K rd) Ps' chs' /\ (forall s it now, ~ In s own -> voice fuel nc vol g Ps now s it -> voice fuel nc vol g Ps' now s it).
Proof.
  intros S TT R T0 T. pose proof (proj1 S) as SO.
  induction ts as [|[i t] ts IH]; intros own Ps chs ND V G H L C; inversion V as [|s y own' z V1 V2]; subst; cbn [run_tracks].
  { exists [], chs, Ps. split; [reflexivity|]. split; [constructor|]. split; [exact H|]. split; [exact L|]. split; [exact C|]. auto. }
  inversion G as [|? ? G1 G2]; subst. cbn [snd] in G1. inversion ND as [|? ? N1 N2]; subst.
  destruct (track_run_safe fuel nc vol g Ps rd s i t t0 time SO H V1 L G1 R T0 T ltac:(lia)) as (t' & ls & -> & L1 & TM & HP & UT & H' & V'). cbn [bind].
  pose proof (cap_total g s SO) as CT. pose proof (vo_cap _ _ _ _ _ _ _ _ V1) as CV. cbn [fst] in CV.
  destruct (mix_safe g rd s time (un_time (tr_unit t')) S R ltac:(lia) ltac:(lia) UT Ps chs C ls 0%nat L1 H' TM) as (chs1 & -> & C1).
  { intros k u p X. specialize (HP k u p X). unfold is_s16. lia. }
  cbn [bind]. assert (L' : length (ext s (rd * 1048576) Ps ls) = Z.to_nat nc) by (rewrite ext_length; [exact L|exact L1]).
  assert (V2' : voices fuel nc vol g (ext s (rd * 1048576) Ps ls) (rd * 1048576 + t0) own' ts).
  { unfold voices in *. clear - V2 N1 L1. induction V2 as [|s' it own' ts V1 V2 IH]; constructor; [|apply IH; intros X; apply N1; right; exact X].
    apply voice_other; [exact V1|intros ->; apply N1; left; reflexivity|exact L1]. }
  destruct (IH _ _ _ N2 V2' G2 H' L' C1) as (ts2 & chs2 & Ps2 & -> & I1 & I2 & I3 & I4 & I5). cbn [bind].
  eexists _, _, _. split; [reflexivity|]. split; [constructor; [apply I5; assumption|exact I1]|]. split; [exact I2|]. split; [exact I3|]. split; [exact I4|].
  intros s' it now NI VV. apply I5; [intros X; apply NI; right; exact X|]. apply voice_other; [exact VV|intros ->; apply NI; left; reflexivity|exact L1].
Qed.

(** A context which plays: sources [g], pulses added so far [Ps], sources of the attached
    tracks [own], frames read so far [rd]. *)
Record song (g : list source) (Ps : list ledger) (own : list Z) (rd time : Z) (c : context) : Prop := {
  sg_soft : soft K gain g;
  sg_total : total g <= 16383;
  sg_hists : hists g Ps;
  sg_len : length Ps = Z.to_nat nc;
  sg_own : NoDup own;
  sg_voices : voices fuel nc vol g Ps (cx_current c) own (cx_tracks c);
  sg_chans : Forall2 (chan K rd) Ps (cx_channels c);
  sg_clocks : Forall (clock_calm (cx_current c)) (cx_clocks c);
  sg_rd : 0 <= rd;
  sg_now : cx_current c = rd * 1048576 + time }.

Lemma step_safe g Ps own rd time c : song g Ps own rd time c -> live time c -> 0 <= time <= 1073741824 -> cx_current c <= MAX_CLOCK ->
  exists c1 q c2 Ps', BKClocksAdvance e fuel c = Ok (c1, q) /\ run_units fuel c1 (time + q) = Ok c2 /\ song g Ps' own rd (time + q) c2.
Proof.
  intros [S1 S2 S3 S4 S5 S6 S7 S8 S9 S10] [L1 L2 L3 L4] T M. pose proof (calm_plain fuel nc vol e EC) as EP.
  destruct (advance_calm fuel nc vol e EC g Ps (cx_current c) own c (proj1 S1) S6 S8 L1 ltac:(lia)) as (c1 & q & E & V1 & C1).
  destruct (advance_fine e fuel c c1 q EP L1 L2 E) as (A1 & A2 & A3 & A4 & A5 & A6 & A7 & _).
  pose proof (kept_good _ _ _ A5 L3) as G1. exists c1, q. unfold run_units.
  destruct (run_tracks_safe g rd time (time + q) S1 S2 S9 ltac:(lia) ltac:(lia) (cx_tracks c1) own Ps (cx_channels c1) S5) as (ts & chs & Ps' & -> & R1 & R2 & R3 & R4 & _);
    [rewrite <- S10; exact V1|exact G1|exact S3|exact S4|rewrite A7; exact S7|].
  cbn [bind]. eexists _, Ps'. split; [exact E|]. split; [reflexivity|]. split; cbn [x_channels x_tracks cx_current cx_tracks cx_channels cx_clocks]; try assumption.
  - rewrite A2, S10. replace (rd * 1048576 + time + q) with (rd * 1048576 + (time + q)) by lia. exact R1.
  - lia.
Qed.

Lemma run_loop_safe g own rd endTime : endTime <= 1073741824 -> forall n c time Ps, song g Ps own rd time c -> live time c -> 0 <= time -> rd * 1048576 + endTime <= MAX_CLOCK ->
  endTime - time < Z.of_nat n -> exists c' t' Ps', run_loop n e fuel c time endTime = Ok (c', t') /\ song g Ps' own rd t' c'.
Proof.
  intros B. induction n as [|n IH]; intros c time Ps S L T M N.
  { cbn [run_loop]. destruct (Z.ltb_spec time endTime); [lia|]. eauto. }
  cbn [run_loop]. destruct (Z.ltb_spec time endTime) as [Q|Q]; [|eauto].
  pose proof (sg_now _ _ _ _ _ _ S) as NW.
  destruct (step_safe _ _ _ _ _ _ S L ltac:(lia) ltac:(lia)) as (c1 & q & c2 & Ps' & E1 & E2 & S2).
  destruct (step_live e fuel c time c1 q c2 (calm_plain _ nc _ _ EC) L ltac:(lia) E1 E2) as (Q1 & L2 & _).
  rewrite E1. cbn [bind]. cbv zeta. rewrite u32_small by lia. rewrite E2. cbn [bind]. apply (IH c2 (time + q) Ps' S2 L2); lia.
Qed.

Lemma tm_ok t x : track_ok fuel t -> 0 <= x < 4294967296 -> track_ok fuel (tm x t).
Proof.
  intros H X. unfold tm. apply ok_unit; [exact H|]. destruct (tk_unit _ _ H) as ((W & T & G) & C). split; [|exact C].
  split; [apply wf_time_set; assumption|]. split; [exact T|]. intros E. apply good_time. apply G. exact E.
Qed.

Lemma voice_shift g Ps now s i t d : voice fuel nc vol g Ps now s (i, t) -> 0 <= un_time (tr_unit t) + d < 4294967296 -> voice fuel nc vol g Ps now s (i, sh d t).
Proof. intros [V1 V2 V3 V4 V5 V6 V7] D. cbn [fst snd] in *. split; cbn [fst snd]; try assumption. apply tm_ok; assumption. Qed.

Lemma voices_shift g Ps now own ts d t0 : voices fuel nc vol g Ps now own ts -> good t0 ts -> 0 <= t0 + d < 2147483648 -> voices fuel nc vol g Ps now own (shs d ts).
Proof.
  intros V G D. unfold voices in *. induction V as [|s [i t] own ts V1 V IH]; cbn [shs map]; [constructor|]. inversion G as [|? ? [_ G1] G2]; subst. cbn [snd] in G1.
  constructor; [|apply IH, G2]. cbn [fst snd]. apply voice_shift; [exact V1|lia].
Qed.

Lemma read_safe g rd k : soft K gain g -> 0 <= rd -> 0 <= k -> forall Ps chs, Forall2 (chan K rd) Ps chs -> forall k0, (forall j, hist g (k0 + j)%nat (nth j Ps [])) ->
  Forall (fun b => k <= b_capacity b) chs -> exists chs' ss, rels k ss chs chs' /\ Forall2 (chan K (rd + k)) Ps chs'.
Proof.
  intros SF R K0 Ps chs C. induction C as [|P b Ps chs C1 C IH]; intros k0 H F; [eexists _, _; split; constructor|].
  inversion F as [|? ? F1 F2]; subst. pose proof (H 0%nat) as H0. cbn [nth] in H0.
  destruct (chan_read K gain HK HG g _ rd P b k SF C1 R H0 ltac:(lia)) as (b' & s & RL & C').
  destruct (IH (S k0)) as (chs' & ss & RS & CS); [intros j; specialize (H (S j)); cbn [nth] in H; replace (S k0 + j)%nat with (k0 + S j)%nat by lia; exact H|exact F2|].
  eexists _, _. split; constructor; eassumption.
Qed.

Lemma chunk_safe g Ps own rd c k n : song g Ps own rd (cx_delta c) c -> ready c -> cx_tracks c <> [] -> 0 <= k <= 1024 -> (rd + k) * 1048576 <= MAX_CLOCK ->
  1073741824 < Z.of_nat n -> exists c' ss Ps', chunk n e fuel c k = Ok (c', k, ss) /\ song g Ps' own (rd + k) (cx_delta c') c' /\ ready c' /\ cx_tracks c' <> [].
Proof.
  intros S R NT KB M N. pose proof (calm_plain _ nc _ _ EC) as EP. pose proof (ready_live _ R) as L. pose proof (rd_delta _ R) as DB.
  destruct (run_loop_safe g own rd (k * 1048576) ltac:(lia) n c (cx_delta c) Ps S L ltac:(lia) ltac:(lia) ltac:(lia)) as (c1 & t1 & Ps' & E & S').
  destruct (run_loop_live e fuel (k * 1048576) EP ltac:(lia) _ _ _ _ _ L ltac:(lia) E) as ([_ _ V3 V4] & V5 & V6 & V7 & (V8 & V9 & V10 & _) & V11 & V12 & _).
  specialize (V12 NT (rd_full _ R)).
  assert (C : Forall (fun b => k <= b_capacity b) (cx_channels c1)).
  { unfold full in V12. eapply Forall_impl; [|exact V12]. cbn. intros b Hb. pose proof (div_mono _ _ V6). rewrite Z.div_mul in * by lia. lia. }
  destruct S' as [S1 S2 S3 S4 S5 S6 S7 S8 S9 S10].
  destruct (read_safe g rd k S1 S9 ltac:(lia) Ps' _ S7 0%nat S3 C) as (chE & ss & RL & CH).
  set (c' := mk_context (cx_rate c1) (cx_period c1) (cx_current c1) (t1 - k * 1048576) (cx_clocks c1) (shs (- (k * 1048576)) (cx_tracks c1)) chE).
  assert (E' : chunk n e fuel c k = Ok (c', k, ss)).
  { apply (chunk_spec e fuel c k EP R NT KB). split; [reflexivity|]. exists (cx_channels c1). split; [|exact RL]. rewrite E. f_equal. f_equal; [|cbn [c' cx_delta]; lia].
    unfold late, c'. cbn [cx_rate cx_period cx_current cx_delta cx_clocks cx_tracks]. rewrite shs_back, <- V9. destruct c1; reflexivity. }
  exists c', ss, Ps'. split; [exact E'|]. destruct (chunk_able e fuel EP c k n c' k ss (conj R NT) KB E') as ((R' & NT') & _). split; [|split; assumption].
  split; unfold c'; cbn [cx_current cx_delta cx_clocks cx_tracks cx_channels]; try assumption; try lia.
  eapply voices_shift; [exact S6|exact V3|lia].
Qed.

Lemma generate_safe g own n : 1073741824 < Z.of_nat n -> forall m Ps rd c rem w, song g Ps own rd (cx_delta c) c -> ready c -> cx_tracks c <> [] ->
  0 <= rem < 4294967296 -> rem <= 1024 * Z.of_nat m -> m <> O -> (rd + rem) * 1048576 <= MAX_CLOCK ->
  exists c' w' ss Ps', generate_loop m n e fuel c rem w = Ok (c', w', ss) /\ song g Ps' own (rd + rem) (cx_delta c') c' /\ ready c' /\ cx_tracks c' <> [].
Proof.
  intros N. induction m as [|m IH]; intros Ps rd c rem w S R NT B L M0 MC; [congruence|]. rewrite generate_chunk. cbv zeta.
  set (k := if rem >? BK_MAX_GENERATE_SAMPLES then BK_MAX_GENERATE_SAMPLES else rem).
  assert (KB : k = Z.min rem 1024) by (unfold k, BK_MAX_GENERATE_SAMPLES; destruct (Z.gtb_spec rem 1024); lia).
  pose proof (sg_rd _ _ _ _ _ _ S) as R0.
  destruct (chunk_safe g Ps own rd c k n S R NT ltac:(lia) ltac:(lia) N) as (c1 & ss & Ps1 & -> & S1 & R1 & NT1). cbn [bind].
  replace (if k =? 0 then rem else k) with k by (destruct (Z.eqb_spec k 0); lia). rewrite u32_small by lia.
  destruct (Z.eqb_spec (rem - k) 0) as [Q|Q]; cbn [negb].
  - replace (rd + rem) with (rd + k) by lia. eexists _, _, _, _. split; [reflexivity|]. split; [exact S1|]. split; assumption.
  - destruct (IH Ps1 (rd + k) c1 (rem - k) (u32 (w + k)) S1 R1 NT1 ltac:(lia) ltac:(lia) ltac:(lia) ltac:(lia)) as (c' & w' & ss' & Ps' & -> & S2 & R2 & NT2). cbn [bind].
    replace (rd + rem) with (rd + k + (rem - k)) by lia. eexists _, _, _, _. split; [reflexivity|]. split; [exact S2|]. split; assumption.
Qed.
End Safe.
