(** Property of units which are attached to a context without a track: C112. *)
From Verif Require Import CInt CIntFacts TimeModel Kernels BufferModel BufferSpec BufferProofs BufferProofs2 PropertiesBuffer DataModel UnitModel UnitSpec UnitProofs UnitInv UnitInv2 UnitInv3 PropertiesUnit
  TrackModel MixSpec MixProofs PropertiesMix ContextModel ContextRun ContextGen2 SafeBuffer PropertiesPeriod PlainModel PlainProofs.
Ltac Zify.zify_post_hook ::= idtac.

(** ** What is to be heard *)

(** The pulses of a unit which starts at time 0 in channel [k] before the time [stop]: one at
    every multiple of the period, by which the level becomes the next value of the waveform. *)
Definition unit_pulses (u : bkunit) (k : nat) (stop : Z) : list (Z * Z) :=
  if vol u k =? 0 then []
  else chan_deltas (vol u k) (lastp u k)
         (edges (Z.to_nat (if 0 <? stop then (stop + un_period u - 1) / un_period u else 0)) (ph_phase (un_phase u)) 0 (un_period u) (cycle u)).

(** All units together at frame [x], and the frames which are heard. *)
Definition units_at (us : list bkunit) (k : nat) (x : Z) : Z :=
  zsum (map (fun u => pulses_at BKBufferStepPhasesHarm (unit_pulses u k ((x + 1) * 1048576)) x) us).
Definition melody (us : list bkunit) (k : nat) (size : Z) : list Z :=
  map saturate (integrate 0 (map (units_at us k) (zseq 0 (Z.to_nat size)))).

(** A unit which is not attached and plays a waveform that is not noise. *)
Definition player (u : bkunit) : Prop := unit_safe u /\ tonal u /\ un_ctx u = None.

Definition attaches (us : list (Z * bkunit)) : list pop := map (fun iu => PAttach (fst iu) (snd iu)) us.

(** ** Proofs *)

Definition joined (n : Z) (u : bkunit) : bkunit := set_time (set_ctx u (Some n)) 0.

Lemma attach_all m fuel n us ops : Forall (fun u => un_ctx u = None) (map snd us) -> forall c, pc_delta c = 0 -> Z.of_nat (length (pc_channels c)) = n ->
  pruns m fuel c (attaches us ++ ops) =
  pruns m fuel (mk_pcontext 0 (pc_units c ++ map (fun iu => (fst iu, joined n (snd iu))) us) (pc_channels c)) ops.
Proof.
  induction us as [|[i u] us IH]; intros F c D L.
  - cbn [attaches map app]. rewrite app_nil_r. destruct c; cbn in *; subst. reflexivity.
  - cbn [map snd] in F. inversion F as [|x y F1 F2]; subst x y. cbn [attaches map app fst snd pruns pstep bind]. unfold plain_attach, BKUnitAttach. rewrite F1, D, L. cbn [Z.eqb]. cbv iota beta.
    change (map (fun iu : Z * bkunit => PAttach (fst iu) (snd iu)) us) with (attaches us). rewrite IH; [|exact F2|reflexivity|exact L]. cbn [pc_units pc_channels]. rewrite <- app_assoc.
    cbn [app fst snd]. unfold joined. destruct (pruns _ _ _ ops) as [[c' l']|]; [|reflexivity]. cbn [bind join]. reflexivity.
Qed.

Lemma joined_start n u : 1 <= n <= 8 -> player u -> startable n (joined n u).
Proof.
  intros N ((W & T & G) & TO & C). split; [|split; [exact TO|reflexivity]].
  assert (W1 : unit_wf (joined n u)).
  { unfold joined. apply wf_time_set; [|lia]. destruct W. constructor; try assumption. intros j J. cbn [un_ctx set_ctx] in J. assert (j = n) as -> by congruence. exact N. }
  split; [exact W1|]. split; [exact T|]. intros E. change (un_waveform (joined n u)) with (un_waveform u) in E. destruct TO as ((_ & R) & _). rewrite E in R. cbv in R. exfalso. apply R. reflexivity.
Qed.

Lemma fresh_channel : chan BKBufferStepPhasesHarm 0 [] BKBufferInit.
Proof.
  apply chan_start; try reflexivity.
  - split; [apply init_ok|]. split; [reflexivity|]. intros i I. unfold cell, BKBufferInit. cbn [b_frames]. apply nth_repeat.
  - intros j J. unfold cell, BKBufferInit. cbn [b_frames]. apply nth_repeat.
Qed.

Lemma loudest_joined n us : total (map unit_source (map (joined n) us)) = zsum (map loudest us).
Proof. unfold total. rewrite !map_map. reflexivity. Qed.

Section Proofs.
Variable m fuel : nat.
Hypothesis HF : 1073742824 <= Z.of_nat fuel.
Variable n : Z.
Hypothesis HN : 1 <= n <= 8.
Variable us : list bkunit.
Hypothesis HU : Forall player us.
Hypothesis NE : us <> [].
Hypothesis HL : zsum (map loudest us) <= 16383.
Let K := BKBufferStepPhasesHarm.
Let vs := map (joined n) us.

Lemma vs_ok : Forall (fun u => startable n u /\ un_time u = 0) vs.
Proof. apply Forall_forall. intros v V. apply in_map_iff in V. destruct V as (u & <- & I). rewrite Forall_forall in HU. split; [apply joined_start; [exact HN|apply HU, I]|reflexivity]. Qed.
Lemma vs_gain : gain_ok K 32767.
Proof. intros row I. apply (C06_kernel_gain BKBufferStepPhasesHarm); auto. Qed.
Lemma vs_soft : soft K 32767 (map unit_source vs).
Proof.
  split; [apply sources_ok|]. unfold K, vs. rewrite loudest_joined. destruct harm_gains as [-> ->]. lia.
Qed.
Lemma vs_total : total (map unit_source vs) <= 16383.
Proof. unfold vs. rewrite loudest_joined. exact HL. Qed.

Lemma tone_units k x : tone K vs k x = units_at us k x.
Proof.
  unfold tone, units_at, vs. rewrite map_map. f_equal. apply map_ext. intros u. unfold wave_pulses, unit_pulses, before. cbn [joined un_time set_time].
  change (vol (joined n u) k) with (vol u k). change (lastp (joined n u) k) with (lastp u k). change (un_period (joined n u)) with (un_period u). change (cycle (joined n u)) with (cycle u).
  change (un_phase (joined n u)) with (un_phase u). rewrite Z.sub_0_r. reflexivity.
Qed.

Lemma runs_ok : m <> O -> forall sizes rd Ps c, Forall (fun s => 0 <= s < 4294967296 /\ s <= 1024 * Z.of_nat m) sizes -> playing K n vs rd Ps c ->
  exists c' ss, pruns m fuel c (map PGenerate sizes) = Ok (c', ss) /\ (sizes <> [] -> length ss = Z.to_nat n) /\ (sizes = [] -> ss = []) /\
    forall k, (k < Z.to_nat n)%nat -> nth k ss [] = tune K vs k rd (zsum sizes).
Proof.
  intros M0. induction sizes as [|s sizes IH]; intros rd Ps c F P; cbn [map pruns].
  - exists c, []. split; [reflexivity|]. split; [congruence|]. split; [reflexivity|]. intros k Q. destruct k; reflexivity.
  - inversion F as [|x y (F1 & F2) F3]; subst. cbn [pstep]. unfold plain_generate. rewrite u32_id by lia.
    destruct (loop_ok K 32767 kernel_ok_harm vs_gain fuel HF n ltac:(lia) vs vs_ok vs_soft vs_total ltac:(unfold vs; destruct us; [congruence|discriminate]) m rd Ps c s 0 P F1 F2 M0) as (c1 & w & ss & Ps1 & -> & P1 & L1 & T1). cbn [bind].
    destruct (IH (rd + s) Ps1 c1 F3 P1) as (c2 & ss2 & -> & L2 & E2 & T2). cbn [bind]. eexists _, _. split; [reflexivity|].
    assert (S0 : 0 <= zsum sizes) by (clear - F3; unfold zsum; induction F3 as [|? ? (? & _)]; cbn [fold_right]; lia).
    pose proof (pl_rd _ _ _ _ _ _ P) as RD. assert (ZS : zsum (s :: sizes) = s + zsum sizes) by reflexivity.
    destruct sizes as [|s' sizes].
    + rewrite (E2 eq_refl), join_nil_r. split; [intros _; exact L1|]. split; [discriminate|]. intros k Q. rewrite T1 by exact Q. f_equal. unfold zsum. cbn [fold_right]. lia.
    + specialize (L2 ltac:(discriminate)). split; [intros _; rewrite join_length; congruence|]. split; [discriminate|]. intros k Q. rewrite join_nth by congruence. rewrite T1, T2 by exact Q. rewrite ZS. symmetry. apply tune_split; first [exact fuel|exact RD|exact S0|lia].
Qed.

Lemma start_playing (ids : list Z) : length ids = length us -> playing K n vs 0 (repeat [] (Z.to_nat n)) (mk_pcontext 0 (combine ids vs) (repeat BKBufferInit (Z.to_nat n))).
Proof.
  intros L. split; cbn [pc_units pc_channels].
  - assert (LV : length ids = length vs) by (unfold vs; rewrite map_length; exact L). pose proof vs_ok as VO. clear - LV VO. revert ids LV. induction VO as [|v vs (V1 & V2) VO IH]; intros [|i ids] LV; cbn in LV; try discriminate; cbn [combine]; constructor.
    + apply start_at; assumption.
    + apply IH. congruence.
  - split; [apply repeat_length|]. intros k Q. rewrite nth_repeat. split; [intros x []|]. intros s S.
    unfold wave_pulses. destruct (vol _ _ =? 0); [reflexivity|].
    assert (B : before (un_time (nth (Z.to_nat s) vs unit0)) (un_period (nth (Z.to_nat s) vs unit0)) (0 * 1048576) = 0).
    { unfold before. destruct (nth_in_or_default (Z.to_nat s) vs unit0) as [I|E]; [|rewrite E; reflexivity]. pose proof vs_ok as VO. rewrite Forall_forall in VO. destruct (VO _ I) as (_ & ->). reflexivity. }
    rewrite B. reflexivity.
  - clear. induction (Z.to_nat n) as [|j IH]; cbn [repeat]; constructor; [apply fresh_channel|exact IH].
  - lia.
Qed.
End Proofs.

(** ** C112 *)

(** Units are attached to a new context and frames are generated: every request succeeds, and
    the frames are the waveforms of the units, from their beginning and added up. *)
Theorem C112_heard m fuel n us sizes : 1 <= n <= 8 -> us <> [] -> Forall player (map snd us) -> zsum (map loudest (map snd us)) <= 16383 ->
  Forall (fun s => 0 <= s < 4294967296 /\ s <= 1024 * Z.of_nat m) sizes -> m <> O -> 1073742824 <= Z.of_nat fuel -> sizes <> [] ->
  exists c frames, pruns m fuel (plain_init n) (attaches us ++ map PGenerate sizes) = Ok (c, frames) /\ length frames = Z.to_nat n /\
    forall k, (k < Z.to_nat n)%nat -> nth k frames [] = melody (map snd us) k (zsum sizes).
Proof.
  intros N NE P L SZ M0 F SN. assert (NI : BKClamp (u32 n) 1 BK_MAX_CHANNELS = n) by (rewrite u32_id by lia; unfold BKClamp, BK_MAX_CHANNELS; replace (n <? 1) with false by lia; replace (n >? 8) with false by lia; reflexivity).
  assert (NE' : map snd us <> []) by (destruct us; [congruence|discriminate]).
  rewrite (attach_all m fuel n); [|eapply Forall_impl; [|exact P]; intros u (_ & _ & C); exact C|reflexivity|unfold plain_init; cbn [pc_channels]; rewrite repeat_length, NI; lia].
  unfold plain_init. cbn [pc_units pc_channels app]. rewrite NI.
  assert (CB : map (fun iu => (fst iu, joined n (snd iu))) us = combine (map fst us) (map (joined n) (map snd us))) by (clear; induction us as [|[i u] us IH]; [reflexivity|]; cbn [map combine fst snd]; rewrite IH; reflexivity).
  rewrite CB. destruct (runs_ok m fuel F n N (map snd us) P NE' L M0 sizes 0 _ _ SZ (start_playing m n N (map snd us) P (map fst us) ltac:(rewrite !map_length; reflexivity))) as (c & ss & E & LS & _ & T).
  exists c, ss. split; [exact E|]. split; [apply LS, SN|]. intros k Q. rewrite (T k Q). unfold tune, melody. cbn [Z.to_nat zseq map integrate_end integrate last]. f_equal. f_equal. apply map_ext. intros x. apply tone_units.
Qed.

(** In which portions the frames are asked for makes no difference. *)
Theorem C112_portions m fuel n us sizes sizes' : 1 <= n <= 8 -> us <> [] -> Forall player (map snd us) -> zsum (map loudest (map snd us)) <= 16383 ->
  Forall (fun s => 0 <= s < 4294967296 /\ s <= 1024 * Z.of_nat m) sizes -> Forall (fun s => 0 <= s < 4294967296 /\ s <= 1024 * Z.of_nat m) sizes' ->
  m <> O -> 1073742824 <= Z.of_nat fuel -> sizes <> [] -> sizes' <> [] -> zsum sizes = zsum sizes' ->
  exists c c' frames, pruns m fuel (plain_init n) (attaches us ++ map PGenerate sizes) = Ok (c, frames) /\
    pruns m fuel (plain_init n) (attaches us ++ map PGenerate sizes') = Ok (c', frames).
Proof.
  intros N NE P L S1 S2 M0 F N1 N2 E. destruct (C112_heard m fuel n us sizes N NE P L S1 M0 F N1) as (c & f & R & LF & T).
  destruct (C112_heard m fuel n us sizes' N NE P L S2 M0 F N2) as (c' & f' & R' & LF' & T'). exists c, c', f. split; [exact R|]. rewrite R'. f_equal. f_equal.
  apply nth_ext with (d := []) (d' := []); [congruence|]. intros k Q. rewrite LF' in Q. rewrite (T k Q), (T' k Q), E. reflexivity.
Qed.

(** A square and a sawtooth wave, the first one only in the second channel. *)
Definition square : bkunit := unit_after BK_SQUARE [UAttr BK_PERIOD 1048576; UAttr BK_VOLUME 8000; UAttr BK_VOLUME_0 0].
Definition saw : bkunit := unit_after BK_SAWTOOTH [UAttr BK_PERIOD 1500000; UAttr BK_VOLUME 6000].
Definition two_units : list (Z * bkunit) := [(1, square); (2, saw)].

Lemma unit_player waveform ops : waveform = BK_SQUARE \/ waveform = BK_SAWTOOTH -> Forall uop_ok ops ->
  (forall u, BKUnitInit waveform = Ok u -> all_steps (fun u o => uop_careful u o /\ uop_timely 5000 u o) 5000 u ops) -> unit_safe (unit_after waveform ops).
Proof. intros W O H. destruct (history_unit 5000 waveform ops O H) as (u & ls & E & S). unfold unit_after. rewrite E. exact S. Qed.

Ltac calls := repeat apply Forall_cons; [vm_compute; intuition congruence..|apply Forall_nil].
Lemma square_player : player square.
Proof.
  split; [|split; vm_compute; intuition congruence]. apply unit_player; [auto|calls|]. intros u E. vm_compute in E. injection E as <-. steps.
Qed.
Lemma saw_player : player saw.
Proof.
  split; [|split; vm_compute; intuition congruence]. apply unit_player; [auto|calls|]. intros u E. vm_compute in E. injection E as <-. steps.
Qed.

Definition played (r : res (pcontext * list (list Z))) : list (list Z) := match r with Ok (_, l) => l | Err _ => [] end.

Example C112_example : Forall player [square; saw] /\ zsum (map loudest [square; saw]) = 14000 /\
  played (pruns 1 30 (plain_init 2) (attaches two_units ++ map PGenerate [3; 0; 9])) = [melody [square; saw] 0 12; melody [square; saw] 1 12] /\
  nth 11 (melody [square; saw] 0 12) 0 = 225 /\ nth 11 (melody [square; saw] 1 12) 0 = 302.
Proof.
  split; [|vm_compute; repeat split; reflexivity]. constructor; [exact square_player|]. constructor; [exact saw_player|constructor].
Qed.

(** Finding: without a track there is no clock, and [deltaTime] is reduced at every end but
    never advanced.  A unit which is attached after frames were generated starts with a time
    which has wrapped around, and is silent for up to 4095 frames. *)
Theorem C112_late_refuted : exists u frames c, player u /\ loudest u <= 16383 /\ nth 11 (melody [u] 0 12) 0 <> 0 /\
  pruns 1 30 (plain_init 1) [PGenerate 1; PAttach 1 u; PGenerate 12] = Ok (c, frames) /\ frames = [repeat 0 12] /\
  match pc_units c with [(_, v)] => un_time v = 4083 * 1048576 | _ => False end.
Proof.
  exists saw. eexists _, _. split; [exact saw_player|]. split; [vm_compute; congruence|]. split; [vm_compute; congruence|]. split; [vm_compute; reflexivity|]. split; vm_compute; reflexivity.
Qed.

Print Assumptions C112_heard.
Print Assumptions C112_portions.
Print Assumptions C112_example.
Print Assumptions C112_late_refuted.
