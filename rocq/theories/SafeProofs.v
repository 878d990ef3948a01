(** Programs with quiet tracks do not fail. *)
From Verif Require Import CInt CIntFacts TimeModel Kernels BufferModel BufferSpec BufferProofs BufferProofs2 DataModel UnitModel UnitSpec UnitProofs UnitProofs2 UnitProofs3 UnitProofs4
  UnitProofs5 UnitInv TrackModel TrackSpec TrackInv TrackProofs TrackProofs6 TrackTicks TrackTime UnitShift MixSpec MixProofs ContextModel ContextSpec ContextSame ContextShift ContextRun
  ContextChunk ContextGen ContextGen2 ContextHist SafeSpec TrackQuiet UnitQuiet SafeBuffer SafeRun SafeLoop.
Ltac Zify.zify_post_hook ::= idtac.

(** ** Lists of sources *)

Lemma zsum_app a b : zsum (a ++ b) = zsum a + zsum b.
Proof. unfold zsum. induction a as [|x a IH]; cbn; lia. Qed.

Lemma sum_incl (f : Z -> Z) : forall l m, NoDup l -> incl l m -> (forall x, In x m -> 0 <= f x) -> zsum (map f l) <= zsum (map f m).
Proof.
  induction l as [|x l IH]; intros m N I P.
  - clear I N. unfold zsum. induction m as [|y m IH]; cbn [map fold_right]; [lia|]. specialize (IH (fun x X => P x (or_intror X))). specialize (P y (or_introl eq_refl)). cbn [map fold_right] in IH. lia.
  - inversion N as [|? ? N1 N2]; subst. destruct (in_split x m (I x (or_introl eq_refl))) as (m1 & m2 & ->).
    assert (IH' : zsum (map f l) <= zsum (map f (m1 ++ m2))).
    { apply IH; [exact N2| |].
      - intros y Y. specialize (I y (or_intror Y)). apply in_app_or in I. apply in_or_app. destruct I as [I|[->|I]]; [left; exact I|contradiction|right; exact I].
      - intros y Y. apply P. apply in_app_or in Y. apply in_or_app. destruct Y; [left|right; right]; assumption. }
    rewrite map_app, zsum_app in *. cbn [map]. unfold zsum in *. cbn [fold_right]. lia.
Qed.

Lemma same_length {A B} (R : A -> B -> Prop) l l' : Forall2 R l l' -> length l = length l'.
Proof. induction 1; cbn; congruence. Qed.

Lemma nodup_snoc (l : list Z) x : NoDup l -> ~ In x l -> NoDup (l ++ [x]).
Proof.
  induction 1 as [|y l N D IH]; intros X; cbn [app]; [constructor; [intros []|constructor]|]. constructor; [|apply IH; intros Y; apply X; right; exact Y].
  intros Y. apply in_app_or in Y. destruct Y as [Y|[->|[]]]; [contradiction|]. apply X. left. reflexivity.
Qed.

Lemma total_nums g : total g = zsum (map (cap g) (nums g)).
Proof. unfold total, cap. rewrite (map_nums g so_cap). reflexivity. Qed.

Lemma nth_more g o s : In s (nums g) -> nth (Z.to_nat s) (g ++ [o]) no_source = nth (Z.to_nat s) g no_source.
Proof. intros H. apply nums_In in H. apply app_nth1. lia. Qed.
Lemma nth_new g o : nth (Z.to_nat (Z.of_nat (length g))) (g ++ [o]) no_source = o.
Proof. rewrite Nat2Z.id, app_nth2, Nat.sub_diag by lia. reflexivity. Qed.
Lemma nums_more g o s : In s (nums (g ++ [o])) <-> In s (nums g) \/ s = Z.of_nat (length g).
Proof. rewrite !nums_In, app_length. cbn [length]. lia. Qed.

Lemma from_none s P : (forall x, In x P -> fst x <> s) -> from s P = [].
Proof.
  induction P as [|[i tp] P IH]; intros H; [reflexivity|]. rewrite from_cons. specialize (IH (fun x X => H x (or_intror X))). pose proof (H _ (or_introl eq_refl)) as N. cbn in N.
  destruct (Z.eqb_spec i s); [contradiction|exact IH].
Qed.

Lemma from_new g k P : hist g k P -> from (Z.of_nat (length g)) P = [].
Proof. intros [H _]. apply from_none. intros x X. specialize (H x X). apply nums_In in H. lia. Qed.

Lemma hist_more g k P o : hist g k P -> hist (g ++ [o]) k P.
Proof.
  intros H. pose proof (from_new _ _ _ H) as N. destruct H as [H1 H2]. split.
  - intros x X. apply nums_more. left. apply H1, X.
  - intros s S. apply nums_more in S. destruct S as [S| ->]; [|rewrite N; exact I].
    unfold lo, hi, cap, base. rewrite nth_more by exact S. apply H2, S.
Qed.

(** ** Tracks *)

Lemma calm_calls fuel V : 0 <= V -> forall calls t, Forall (calm_call fuel V) calls -> calm_track fuel V t ->
  exists t' ls, truns fuel t calls = Ok (t', ls) /\ calm_track fuel V t'.
Proof.
  intros V0. induction calls as [|o calls IH]; intros t F (T1 & T2 & T3); cbn [truns].
  - eexists _, _. split; [reflexivity|]. split; [exact T1|]. split; assumption.
  - inversion F as [|? ? F1 F2]; subst. destruct (tstep_ok fuel t o T1 (call_top_ok fuel V t o F1 T3)) as (t1 & l & E & O). rewrite E. cbn [bind].
    destruct (call_quiet V fuel t o t1 l V0 F1 T3 E) as (Q & S & _). destruct (IH t1 F2) as (t2 & ls & -> & C); [split; [exact O|]; split; [congruence|exact Q]|].
    cbn [bind]. eexists _, _. split; [reflexivity|exact C].
Qed.

Lemma made_calm fuel V t : 0 <= V -> made fuel V t -> calm_track fuel V t.
Proof.
  intros V0 (w & t0 & calls & ls & W & E & F & R). destruct (init_ok fuel w W) as (t1 & E1 & O). assert (t1 = t0) as -> by congruence.
  destruct (init_quiet V fuel w t0 V0 E) as [Q C]. destruct (calm_calls fuel V V0 calls t0 F (conj O (conj C Q))) as (t' & ls' & R' & C'). congruence.
Qed.

Lemma made_exists fuel V w calls : 0 <= V -> waveform_phases (s32 w) <> None -> Forall (calm_call fuel V) calls ->
  exists t0 t ls, BKTrackInit fuel w = Ok t0 /\ truns fuel t0 calls = Ok (t, ls).
Proof.
  intros V0 W F. destruct (init_ok fuel w W) as (t0 & E & O). destruct (init_quiet V fuel w t0 V0 E) as [Q C].
  destruct (calm_calls fuel V V0 calls t0 F (conj O (conj C Q))) as (t' & ls' & R' & _). eauto.
Qed.

Section Safe.
Variable K : list (list Z).
Variable gain : Z.
Hypothesis HK : kernel_ok K.
Hypothesis HG : gain_ok K gain.
Variable limit : Z.
Hypothesis G0 : 0 <= cell_gain K /\ 0 <= sum_gain K gain.
Hypothesis HL : limit <= 16383 /\ 2 * limit * cell_gain K <= 2147483647 /\ 2 * limit * sum_gain K gain <= 2147483647.
Variable fuel : nat.
Variable nc : Z.
Hypothesis NC : 1 <= nc <= 8.
Variable vol : Z -> Z.
Variable e : env.
Hypothesis EC : env_calm fuel vol e.
Hypothesis HF : 1789570706 <= Z.of_nat fuel.
Variable m n : nat.
Hypothesis HM : 4194304 <= Z.of_nat m.
Hypothesis HN : 1073741824 < Z.of_nat n.

Notation voice := (voice fuel nc vol).
Notation voices := (voices fuel nc vol).
Notation song := (song K gain fuel nc vol).

Lemma soft_limit g : Forall source_ok g -> total g <= limit -> soft K gain g.
Proof.
  intros F T. split; [exact F|].
  assert (P : 0 <= total g).
  { clear T. unfold total, zsum. induction F as [|o g H F IH]; cbn; [lia|]. specialize (H 0%nat). lia. }
  split; nia.
Qed.

Lemma voice_more g Ps now s it o : voice g Ps now s it -> voice (g ++ [o]) Ps now s it.
Proof.
  intros [V1 V2 V3 V4 V5 V6 V7]. split; try assumption.
  - apply nums_more. left. exact V1.
  - unfold cap. rewrite nth_more by exact V1. exact V2.
  - intros k. unfold base. rewrite nth_more by exact V1. apply V6.
Qed.

Lemma voices_own g Ps now own ts : voices g Ps now own ts -> incl own (nums g).
Proof. unfold SafeRun.voices. induction 1 as [|s it own ts V F IH]; [intros x []|]. intros x [<-|X]; [apply (vo_num _ _ _ _ _ _ _ _ V)|apply IH, X]. Qed.

Lemma voices_sum g Ps now own ts : voices g Ps now own ts -> map (cap g) own = map vol (map fst ts).
Proof. unfold SafeRun.voices. induction 1 as [|s it own ts V F IH]; [reflexivity|]. cbn [map]. rewrite IH, (vo_cap _ _ _ _ _ _ _ _ V). reflexivity. Qed.

Lemma voices_filter g Ps now f : forall own ts, voices g Ps now own ts -> NoDup own ->
  exists own', voices g Ps now own' (filter f ts) /\ NoDup own' /\ incl own' own.
Proof.
  unfold SafeRun.voices. induction 1 as [|s it own ts V F IH]; intros N; [exists []; split; [constructor|split; [constructor|apply incl_refl]]|].
  inversion N as [|? ? N1 N2]; subst. destruct (IH N2) as (own' & I1 & I2 & I3). cbn [filter]. destruct (f it).
  - exists (s :: own'). split; [constructor; assumption|]. split; [constructor; [|exact I2]; intros X; apply N1, I3, X|]. intros x [<-|X]; [left; reflexivity|right; apply I3, X].
  - exists own'. split; [exact I1|]. split; [exact I2|]. intros x X. right. apply I3, X.
Qed.

Definition clock_small (k : vclock) : Prop := k_period k <= BK_TIME_MAX /\ (k_next k = 0 \/ k_period k <= Z.max MAX_CLOCK (k_next k)).

Lemma calm_clocks cur ks : Forall (clock_fine cur) ks -> Forall clock_small ks -> Forall (clock_calm cur) ks.
Proof. rewrite !Forall_forall. intros A B k I. split; [apply A, I|apply B, I]. Qed.
Lemma calm_small cur ks : Forall (clock_calm cur) ks -> Forall clock_small ks.
Proof. apply Forall_impl. intros k [_ H]. exact H. Qed.

Record tune (started : bool) (ids : list Z) (used frames : Z) (c : context) : Prop := {
  tn_inv : inv started ids c;
  tn_period : cx_period c <= MAX_CLOCK;
  tn_limit : used <= limit;
  tn_song : exists g Ps own, song g Ps own frames (cx_delta c) c /\ total g = used }.

Lemma song_channels g Ps own rd d c : song g Ps own rd d c -> numChannels c = nc.
Proof. intros S. unfold numChannels. rewrite <- (same_length _ _ _ (sg_chans _ _ _ _ _ _ _ _ _ _ _ S)), (sg_len _ _ _ _ _ _ _ _ _ _ _ S). lia. Qed.

Lemma reset_voices g Ps now : Forall source_ok g -> forall own ts, voices g Ps now own ts -> exists ts', reset_tracks fuel ts = Ok ts' /\
  Forall (fun it => track_ok fuel (snd it) /\ quiet_track (vol (fst it)) (snd it) /\ un_ctx (tr_unit (snd it)) = Some nc /\ un_lastPulse (tr_unit (snd it)) = silence) ts'.
Proof.
  intros F. unfold SafeRun.voices. induction 1 as [|s [i t] own ts V VS IH]; cbn [reset_tracks]; [eexists; split; [reflexivity|constructor]|].
  pose proof (voice_vol _ _ _ _ _ _ _ _ F V) as V0. destruct (reset_ok fuel t (vo_ok _ _ _ _ _ _ _ _ V)) as (t' & E & O). rewrite E. cbn [bind].
  destruct (reset_quiet' (vol i) fuel t t' V0 (vo_quiet _ _ _ _ _ _ _ _ V) E) as (Q1 & Q2 & Q3). destruct IH as (ts' & -> & IH). cbn [bind].
  eexists. split; [reflexivity|]. constructor; [|exact IH]. cbn [fst snd]. split; [exact O|]. split; [exact Q1|]. split; [|exact Q3].
  rewrite Q2. apply (vo_ctx _ _ _ _ _ _ _ _ V).
Qed.

Definition fresh_sources (ids : list Z) : list source := map (fun i => mk_source (vol i) []) ids.

Lemma fresh_voices now Ps : (forall k, nth k Ps [] = []) -> forall ts,
  Forall (fun it => track_ok fuel (snd it) /\ quiet_track (vol (fst it)) (snd it) /\ un_ctx (tr_unit (snd it)) = Some nc /\ un_lastPulse (tr_unit (snd it)) = silence) ts ->
  voices (fresh_sources (map fst ts)) Ps now (zseq 0 (length ts)) ts.
Proof.
  intros PE ts F.
  assert (G : forall pre l, Forall (fun it => track_ok fuel (snd it) /\ quiet_track (vol (fst it)) (snd it) /\ un_ctx (tr_unit (snd it)) = Some nc /\ un_lastPulse (tr_unit (snd it)) = silence) l ->
    Forall2 (voice (fresh_sources (map fst (pre ++ l))) Ps now) (zseq (Z.of_nat (length pre)) (length l)) l).
  { intros pre l. revert pre. induction l as [|it l IH]; intros pre FL; cbn [length zseq]; [constructor|]. inversion FL as [|? ? (A1 & A2 & A3 & A4) FL']; subst. constructor.
    - assert (NT : nth (Z.to_nat (Z.of_nat (length pre))) (fresh_sources (map fst (pre ++ it :: l))) no_source = mk_source (vol (fst it)) []).
      { rewrite Nat2Z.id. unfold fresh_sources. rewrite map_map, map_app, app_nth2 by (rewrite map_length; lia). rewrite map_length, Nat.sub_diag. reflexivity. }
      split; try assumption.
      + apply nums_In. unfold fresh_sources. rewrite !map_length, app_length. cbn [length]. lia.
      + unfold cap. rewrite NT. reflexivity.
      + intros k. left. unfold base. rewrite NT, PE. unfold lastp. rewrite A4. cbn [so_base from]. unfold silence. rewrite nth_repeat. destruct k; reflexivity.
      + intros k u p. rewrite PE. intros [].
    - specialize (IH (pre ++ [it]) FL'). rewrite <- app_assoc in IH. cbn [app] in IH. rewrite app_length in IH. cbn [length] in IH.
      replace (Z.of_nat (length pre) + 1) with (Z.of_nat (length pre + 1)) by lia. exact IH. }
  apply (G [] ts F).
Qed.

Lemma clear_chan rd P b : chan K rd P b -> chan K 0 [] (BKBufferClear b).
Proof.
  intros C. apply chan_start; [apply fine_clear, (ch_fine _ _ _ _ C)|apply (ch_pulse _ _ _ _ C)|reflexivity|]. intros j _. unfold cell, BKBufferClear. cbn [b_frames]. apply nth_repeat.
Qed.

Lemma hists_none g Ps : (forall k, nth k Ps [] = []) -> hists g Ps.
Proof. intros H k. rewrite H. split; [intros x []|intros s _; exact I]. Qed.

Lemma step_calm started ids used frames c o ops : tune started ids used frames c -> 0 <= frames -> frames <= MAX_FRAMES -> calm fuel vol limit started ids used frames (o :: ops) ->
  exists c' l started' ids' used' frames', xstep m n e fuel c o = Ok (c', l) /\ tune started' ids' used' frames' c' /\ 0 <= frames' <= MAX_FRAMES /\
    calm fuel vol limit started' ids' used' frames' ops /\ yields nc o l.
Proof.
  intros [I P L (g & Ps & own & S & T)] F0 F1 C. pose proof (calm_plain _ nc _ _ EC) as EP. pose proof (song_channels _ _ _ _ _ _ S) as NCH.
  assert (LG : forall c' l, legal started ids [o] -> xstep m n e fuel c o = Ok (c', l) -> inv (after started o) (attached ids [o]) c').
  { intros c' l LE E. destruct (legal_step m n e fuel EP started ids c o [] c' l I LE E) as (s' & i' & I' & _ & A & ->). change (attached i' []) with i' in A. rewrite <- A. exact I'. }
  destruct o; cbn [calm] in C; try contradiction.
  - (* XAttachClock *)
    destruct C as (C1 & C2 & C3 & C). eexists _, _, started, ids, used, frames. split; [reflexivity|]. split; [|split; [lia|split; [exact C|reflexivity]]].
    assert (I' : inv started ids (attach_clock c id period)) by (apply (LG _ []); [cbn; repeat split; (assumption || lia)|reflexivity]).
    split; [exact I'|exact P|exact L|]. exists g, Ps, own. split; [|exact T]. destruct S as [S1 S2 S3 S4 S5 S6 S7 S8 S9 S10]. split; try assumption.
    apply calm_clocks; [apply (iv_clocks _ _ _ I')|]. apply Forall_app. split; [eapply calm_small, S8|]. constructor; [|constructor].
    unfold clock_small. cbn [k_period k_next]. rewrite max_clock_val in C3. unfold BK_TIME_MAX. lia.
  - (* XAttachTrack *)
    destruct C as (V0 & C0 & C4 & C). destruct (made_calm fuel (vol id) t V0 C0) as (C1 & C2 & C3).
    destruct (tk_unit _ _ C1) as ((W & _) & _).
    assert (TF : track_free t) by (split; [exact C2|split; [apply (wf_period _ W)|apply (wf_frac _ W)]]).
    destruct (attach_ok fuel t nc (cx_rate c) (cx_delta c) C1 NC) as (t' & r & E & O); [pose proof (iv_delta _ _ _ I); lia|left; apply C3|].
    destruct (attach_quiet (vol id) nc (cx_rate c) (cx_delta c) t t' r V0 C3 C2 E) as (-> & Q1 & Q2 & Q3).
    assert (E' : xstep m n e fuel c (XAttachTrack id t) = Ok (attach_master (x_tracks c (cx_tracks c ++ [(id, t')])), [])).
    { cbn [xstep]. unfold attach_track. rewrite NCH, E. reflexivity. }
    eexists _, _, started, (ids ++ [id]), (used + vol id), frames. split; [exact E'|]. split; [|split; [lia|split; [exact C|reflexivity]]].
    assert (I' : inv started (ids ++ [id]) (attach_master (x_tracks c (cx_tracks c ++ [(id, t')])))) by (apply (LG _ []); [cbn; auto|exact E']).
    assert (AM : cx_period (attach_master (x_tracks c (cx_tracks c ++ [(id, t')]))) = cx_period c /\
      cx_current (attach_master (x_tracks c (cx_tracks c ++ [(id, t')]))) = cx_current c /\ cx_delta (attach_master (x_tracks c (cx_tracks c ++ [(id, t')]))) = cx_delta c /\
      cx_tracks (attach_master (x_tracks c (cx_tracks c ++ [(id, t')]))) = cx_tracks c ++ [(id, t')] /\
      cx_channels (attach_master (x_tracks c (cx_tracks c ++ [(id, t')]))) = cx_channels c /\
      Forall clock_small (cx_clocks (attach_master (x_tracks c (cx_tracks c ++ [(id, t')]))))).
    { assert (CS : Forall clock_small (cx_clocks c)) by (eapply calm_small, (sg_clocks _ _ _ _ _ _ _ _ _ _ _ S)).
      unfold attach_master. cbn [x_tracks cx_period cx_clocks]. destruct (BKTimeIsGreater _ _); [|repeat split; exact CS].
      destruct (existsb _ _); [repeat split; exact CS|]. repeat split. cbn [x_clocks cx_clocks x_tracks]. constructor; [|exact CS].
      unfold clock_small. cbn [k_period k_next]. rewrite max_clock_val in P. unfold BK_TIME_MAX. lia. }
    revert I' AM. generalize (attach_master (x_tracks c (cx_tracks c ++ [(id, t')]))). intros c' I' (A1 & A2 & A3 & A4 & A5 & A6).
    split; [exact I'|lia|exact C4|].
    set (o := mk_source (vol id) (un_lastPulse (tr_unit t))). exists (g ++ [o]), Ps, (own ++ [Z.of_nat (length g)]).
    destruct S as [S1 S2 S3 S4 S5 S6 S7 S8 S9 S10].
    assert (TT : total (g ++ [o]) = used + vol id) by (unfold total in *; rewrite map_app, zsum_app, T; cbn; lia). split; [|exact TT].
    assert (SO : source_ok o).
    { intros k. cbn [o so_base so_cap]. destruct C3 as [(_ & _ & _ & _ & C5) _]. destruct (nth_in_or_default k (un_lastPulse (tr_unit t)) 0) as [X| ->]; [|lia].
      rewrite Forall_forall in C5. apply C5, X. }
    split.
    + apply soft_limit; [apply Forall_app; split; [apply S1|constructor; [exact SO|constructor]]|lia].
    + lia.
    + intros k. apply hist_more, S3.
    + exact S4.
    + apply nodup_snoc; [exact S5|]. intros X. apply (voices_own _ _ _ _ _ S6), nums_In in X. lia.
    + rewrite A2, A4. apply Forall2_app; [clear - S6; induction S6; constructor; [apply voice_more; assumption|assumption]|]. constructor; [|constructor]. split; cbn [fst snd]; try assumption.
      * apply nums_more. right. reflexivity.
      * unfold cap. rewrite nth_new. reflexivity.
      * intros k. left. rewrite (from_new g k) by apply S3. unfold base, lastp. rewrite nth_new, Q3. cbn. lia.
      * intros k u p. rewrite (from_new g k) by apply S3. intros [].
    + rewrite A5. exact S7.
    + apply calm_clocks; [apply (iv_clocks _ _ _ I')|exact A6].
    + exact S9.
    + rewrite A2, A3. exact S10.
  - (* XDetachTrack *)
    eexists _, _, started, _, used, frames. split; [reflexivity|]. split; [|split; [lia|split; [exact C|reflexivity]]].
    split; [apply (LG _ []); [exact Logic.I|reflexivity]|exact P|exact L|]. destruct S as [S1 S2 S3 S4 S5 S6 S7 S8 S9 S10].
    destruct (voices_filter _ _ _ (fun it => negb (fst it =? id)) _ _ S6 S5) as (own' & V & N & _). exists g, Ps, own'. split; [|exact T]. split; assumption.
  - (* XTrack *)
    destruct C as [C1 C]. destruct S as [S1 S2 S3 S4 S5 S6 S7 S8 S9 S10].
    destruct (call_track_voices fuel nc vol g Ps (cx_current c) (id, o) own (cx_tracks c) (proj1 S1) C1 S6) as (ts & E & V).
    assert (E' : xstep m n e fuel c (XTrack id o) = Ok (x_tracks c ts, [])) by (cbn [xstep]; rewrite E; reflexivity).
    eexists _, _, started, ids, used, frames. split; [exact E'|]. split; [|split; [lia|split; [exact C|reflexivity]]].
    split; [apply (LG _ []); [split; [apply (call_plain fuel nc vol _ _ C1)|exact Logic.I]|exact E']|exact P|exact L|]. exists g, Ps, own. split; [|exact T]. split; assumption.
  - (* XPeriod *)
    destruct C as [C1 C]. eexists _, _, started, ids, used, frames. split; [reflexivity|]. split; [|split; [lia|split; [exact C|reflexivity]]].
    assert (I' : inv started ids (fst (set_clock_period c period))) by (apply (LG _ []); [exact Logic.I|reflexivity]). revert I'.
    unfold set_clock_period. destruct (BKTimeIsGreater period 0); cbn [fst]; intros I'; [|split; [exact I'|exact P|exact L|exists g, Ps, own; split; [exact S|exact T]]].
    split; [exact I'|exact C1|exact L|]. exists g, Ps, own. split; [|exact T]. destruct S as [S1 S2 S3 S4 S5 S6 S7 S8 S9 S10].
    split; try assumption. apply calm_clocks; [apply (iv_clocks _ _ _ I')|]. cbn [cx_clocks]. apply Forall_map. eapply Forall_impl; [|eapply calm_small, S8].
    intros k H. destruct (k_id k =? 0); [|exact H]. unfold clock_small. cbn [k_period k_next]. rewrite max_clock_val in *. unfold BK_TIME_MAX. lia.
  - (* XGenerate *)
    destruct C as (C1 & C2 & C). destruct (inv_able _ _ _ I C1) as [R NT]. pose proof (u32_range size) as UR. unfold MAX_FRAMES in C2, F1.
    destruct (generate_safe K gain HK HG fuel nc vol e EC HF g own n HN m Ps frames c (u32 size) 0 S R NT) as (c' & w & ss & Ps' & E & S' & R' & NT'); [lia|lia|lia|rewrite max_clock_val; lia|].
    assert (E' : xstep m n e fuel c (XGenerate size) = Ok (c', ss)) by (cbn [xstep]; unfold BKContextGenerate; rewrite E; reflexivity).
    eexists _, _, true, ids, used, (frames + u32 size). split; [exact E'|]. split; [|split; [unfold MAX_FRAMES; lia|split; [exact C|]]].
    2: { destruct (generate_exact e fuel EP c (u32 size) m n c' w ss (conj R NT) UR E) as (_ & _ & X1 & X2). split; [rewrite X1; exact NCH|exact X2]. }
    apply (generate_ones e fuel EP) in E; [|split; assumption|lia|lia|lia]. destruct E as [_ O]. destruct (ones_steady _ _ _ _ _ _ EP O (conj R NT)) as (_ & _ & PE).
    split; [apply (LG _ ss); [split; [exact C1|exact Logic.I]|exact E']|lia|exact L|]. exists g, Ps', own. split; [exact S'|exact T].
  - (* XReset *)
    destruct S as [S1 S2 S3 S4 S5 S6 S7 S8 S9 S10]. destruct (reset_voices g Ps _ (proj1 S1) _ _ S6) as (ts & E & V).
    assert (E' : xstep m n e fuel c XReset = Ok (mk_context (cx_rate c) (cx_period c) 0 0 (map (fun k => mk_vclock (k_id k) (k_period k) 0 0 0) (cx_clocks c)) ts (map BKBufferClear (cx_channels c)), []))
      by (cbn [xstep]; unfold BKContextReset; rewrite E; reflexivity).
    eexists _, _, false, ids, _, 0. split; [exact E'|]. split; [|split; [unfold MAX_FRAMES; lia|split; [exact C|reflexivity]]].
    pose proof (LG _ _ Logic.I E') as I'. cbn [after attached] in I'. pose proof (iv_ids _ _ _ I') as ID. cbn [cx_tracks] in ID. pose proof (iv_ids _ _ _ I) as ID0.
    assert (VP : forall i, In i ids -> 0 <= vol i).
    { intros i X. rewrite <- ID in X. apply in_map_iff in X. destruct X as (it & <- & X). rewrite Forall_forall in V. destruct (V it X) as (_ & (_ & Q) & _). lia. }
    assert (TT : total (fresh_sources ids) = fold_right Z.add 0 (map vol ids)) by (unfold total, fresh_sources, zsum; rewrite map_map; reflexivity).
    assert (TL : fold_right Z.add 0 (map vol ids) <= used).
    { rewrite <- T, total_nums, <- ID0. change (fold_right Z.add 0 ?x) with (zsum x). rewrite <- (voices_sum _ _ _ _ _ S6). apply sum_incl; [exact S5|eapply voices_own, S6|].
      intros x X. specialize (source_In g x (proj1 S1) X 0%nat). unfold cap. lia. }
    assert (SO : Forall source_ok (fresh_sources ids)).
    { apply Forall_map. apply Forall_forall. intros i X k. cbn [so_cap so_base]. specialize (VP i X). destruct k; cbn; lia. }
    assert (PE : forall k, nth k (repeat (@nil (Z * (Z * Z))) (Z.to_nat nc)) [] = []) by (intros k; apply nth_repeat).
    split; [exact I'|exact P|lia|]. exists (fresh_sources ids), (repeat [] (Z.to_nat nc)), (zseq 0 (length ts)). split; [|exact TT].
    split; cbn [cx_current cx_tracks cx_channels cx_clocks cx_delta]; try lia.
    + apply soft_limit; [exact SO|lia].
    + apply hists_none, PE.
    + apply repeat_length.
    + apply zseq_NoDup.
    + rewrite <- ID. apply fresh_voices; assumption.
    + rewrite <- S4. clear - S7. induction S7 as [|P b Ps chs H S7 IH]; cbn [length repeat map]; constructor; [eapply clear_chan, H|exact IH].
    + apply calm_clocks; [apply (iv_clocks _ _ _ I')|]. apply Forall_map. eapply Forall_impl; [|eapply calm_small, S8]. intros k [H _]. split; [exact H|left; reflexivity].
Qed.

Theorem calm_runs : forall ops started ids used frames c, tune started ids used frames c -> 0 <= frames <= MAX_FRAMES -> calm fuel vol limit started ids used frames ops ->
  exists c' ls, xruns m n e fuel c ops = Ok (c', ls) /\ Forall2 (yields nc) ops ls.
Proof.
  induction ops as [|o ops IH]; intros started ids used frames c T F C; cbn [xruns]; [eauto|].
  destruct (step_calm _ _ _ _ _ _ _ T (proj1 F) (proj2 F) C) as (c1 & l & s' & i' & u' & f' & -> & T' & F' & C' & Y). cbn [bind].
  destruct (IH _ _ _ _ _ T' F' C') as (c2 & ls & -> & YS). cbn [bind]. eauto.
Qed.

Lemma start_tune rate period ch : 0 < period <= MAX_CLOCK -> 0 <= limit -> nc = BKClamp (u32 ch) 1 BK_MAX_CHANNELS ->
  tune false [] 0 0 (set_pulse_kernel (BKContextInit ch rate period) (Some K)).
Proof.
  intros P L0 N.
  assert (I' : inv false [] (set_pulse_kernel (BKContextInit ch rate period) (Some K))).
  { destruct (legal_step 0 0 e fuel (calm_plain _ nc _ _ EC) false [] (BKContextInit ch rate period) (XKernel (Some K)) [] _ [] (init_inv _ _ _ (proj1 P)) (conj HK Logic.I) eq_refl)
      as (s' & i' & I' & _ & A & ->). change (attached i' []) with i' in A. rewrite A in I'. exact I'. }
  split; [exact I'|apply P|exact L0|]. exists [], (repeat [] (Z.to_nat nc)), []. split; [|reflexivity].
  assert (PE : forall k, nth k (repeat (@nil (Z * (Z * Z))) (Z.to_nat nc)) [] = []) by (intros k; apply nth_repeat).
  split; cbn [set_pulse_kernel x_channels BKContextInit cx_current cx_tracks cx_channels cx_clocks cx_delta]; try lia.
  - apply soft_limit; [constructor|cbn; lia].
  - cbn. lia.
  - apply hists_none, PE.
  - apply repeat_length.
  - constructor.
  - constructor.
  - rewrite <- N. pose proof (iv_channels _ _ _ I') as FN. cbn [set_pulse_kernel x_channels BKContextInit cx_channels] in FN. rewrite <- N in FN. revert FN.
    generalize (Z.to_nat nc). intros z. induction z as [|z IH]; intros FN; cbn [repeat map] in *; constructor; [|apply IH; inversion FN; assumption].
    inversion FN as [|? ? F1 F2]; subst. apply chan_start; [exact F1|reflexivity|reflexivity|]. intros j _. unfold cell, BKBufferInit. cbn [b_frames]. apply nth_repeat.
  - constructor.
Qed.
End Safe.
