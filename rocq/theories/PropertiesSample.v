(** Properties of the frames a unit plays of a sample: C114, C115 and C116. *)
From Verif Require Import CInt CIntFacts DataModel UnitModel UnitSpec UnitProofs UnitProofs2 UnitProofs3 UnitProofs4 UnitInv UnitInv2 UnitInv3 UnitProofs5 PropertiesUnit PropertiesPeriod SampleProofs.
Ltac Zify.zify_post_hook ::= idtac.

(** ** What is to be heard *)

(** The unit plays a sample and is not muted.  [t0] is the time of its next frame. *)
Definition sounds (u : bkunit) (n : Z) (c : nat) : Prop :=
  unit_safe u /\ plays_sample u /\ un_mute u = 0 /\ un_ctx u = Some n /\ (c < Z.to_nat n)%nat.

(** Position and fraction of step [j] after the present one on an endless sample. *)
Definition position (u : bkunit) (j : Z) : Z := ph_phase (un_phase u) + (sm_timeFrac (un_sample u) + j * sm_period (un_sample u)) / 1048576.
Definition fraction (u : bkunit) (j : Z) : Z := (sm_timeFrac (un_sample u) + j * sm_period (un_sample u)) mod 1048576.
(** The time of step [j]: there is one in every 2^20 clock units, which is one frame of the output. *)
Definition moment (u : bkunit) (now j : Z) : Z := now + un_time u + j * 1048576 + fraction u j.
Definition begun (u : bkunit) (now : Z) (rs : list (Z * Z)) (j : Z) : Prop := 0 <= j /\ now + un_time u + j * 1048576 < horizon now now rs.

Lemma begun_nat u now rs j : begun u now rs j -> (Z.to_nat j < Z.to_nat (before (now + un_time u) 1048576 (horizon now now rs)))%nat.
Proof.
  intros (J & B). set (h := horizon now now rs) in *. pose proof (before_bounds (now + un_time u) 1048576 h ltac:(lia)) as [B0 B1]. specialize (B1 ltac:(lia)). lia.
Qed.
Lemma nat_begun u now rs j : (j < Z.to_nat (before (now + un_time u) 1048576 (horizon now now rs)))%nat -> begun u now rs (Z.of_nat j).
Proof.
  intros J. set (h := horizon now now rs) in *. pose proof (before_bounds (now + un_time u) 1048576 h ltac:(lia)) as [B0 B1]. unfold begun. fold h. split; [lia|].
  destruct (Z.lt_ge_cases (now + un_time u) h) as [T|T]; [specialize (B1 T); lia|]. unfold before in J. replace (now + un_time u <? h) with false in J by lia. cbn in J. lia.
Qed.

Lemma sounds_start u n c : sounds u n c -> q_halt (pos_of u) = false /\ 0 <= q_pos (pos_of u) < sm_length (un_sample u) /\ 0 <= q_frac (pos_of u) < 1048576 /\ 2 <= sm_length (un_sample u).
Proof.
  intros ((W & _ & G) & (TW & _ & TL & _) & M & _). specialize (G TW). unfold pos_of. cbn [q_halt q_pos q_frac]. rewrite M. split; [reflexivity|].
  pose proof (wf_frac u W). pose proof (wf_phase u W). pose proof (sg_phase u G TL). split; [lia|]. split; [lia|exact TL].
Qed.

(** * C114 *)

(** A repeated sample: step [j] is heard as the frame at its position, counted round the sample,
    from its moment to that of the next step.  There are pulses at these moments only. *)
Theorem C114_repeat fuel u c n now rs : sounds u n c -> mode_of u = BK_REPEAT -> hold_of u = None -> rounds_good fuel rs ->
  exists u' l, rounds fuel u c now rs = Ok (u', l) /\
    (forall j t, begun u now rs j -> moment u now j <= t < moment u now (j + 1) ->
       lastp u c + heard l t = level (vol u c) (frame_at u c (position u j mod sm_length (un_sample u)))) /\
    Forall (fun tp => exists j, begun u now rs j /\ fst tp = moment u now j) l.
Proof.
  intros SO MO HO G. destruct (sounds_start u n c SO) as (Q1 & Q2 & Q3 & Q4). destruct SO as (S & T & M & CX & CN). pose proof (wf_time u (proj1 S)) as WT.
  destruct (rounds_play fuel c n rs G CN u now now S T CX ltac:(left; lia)) as (u' & E & _). exists u'. eexists. split; [exact E|]. rewrite MO, HO.
  pose proof (reach_repeat (sm_length (un_sample u)) (pos_of u) ltac:(lia) Q1 Q2 Q3) as R. split.
  - intros j t B H. pose proof (begun_nat _ _ _ _ B) as BN. rewrite (heard_play _ _ _ _ _ _ (Z.to_nat j)); rewrite ?R; cbn [q_halt q_pos q_frac]; try assumption; try reflexivity.
    + rewrite Z2Nat.id by apply B. reflexivity.
    + rewrite Z2Nat.id by apply B. apply H.
    + intros _ _. replace (Z.of_nat (Datatypes.S (Z.to_nat j))) with (j + 1) by (destruct B; lia). apply H.
  - eapply Forall_impl; [|apply play_times]. intros tp (j & J & _ & F). exists (Z.of_nat j). split; [apply nat_begun; exact J|]. rewrite F, R. reflexivity.
Qed.

(** A sample which is not repeated: the same as long as the position is inside of the sample.
    The step which leaves it ends the sample: the level stays as it is and the unit is muted. *)
Theorem C114_once fuel u c n now rs : sounds u n c -> mode_of u <> BK_REPEAT -> mode_of u <> BK_PALINDROME -> hold_of u = None -> rounds_good fuel rs ->
  exists u' l, rounds fuel u c now rs = Ok (u', l) /\
    (forall j, begun u now rs j -> 0 <= position u j < sm_length (un_sample u) ->
       (forall t, moment u now j <= t < moment u now (j + 1) -> lastp u c + heard l t = level (vol u c) (frame_at u c (position u j))) /\
       (~ 0 <= position u (j + 1) < sm_length (un_sample u) ->
        un_mute u' <> 0 /\ forall t, moment u now j <= t -> lastp u c + heard l t = level (vol u c) (frame_at u c (position u j)))) /\
    ((forall j, begun u now rs j -> 0 <= position u (j + 1) < sm_length (un_sample u)) -> un_mute u' = 0) /\
    Forall (fun tp => exists j, begun u now rs j /\ 0 <= position u j < sm_length (un_sample u) /\ fst tp = moment u now j) l.
Proof.
  intros SO M1 M2 HO G. destruct (sounds_start u n c SO) as (Q1 & Q2 & Q3 & Q4). destruct SO as (S & T & M & CX & CN). pose proof (wf_time u (proj1 S)) as WT.
  destruct (rounds_play fuel c n rs G CN u now now S T CX ltac:(left; lia)) as (u' & E & _ & PU). exists u'. eexists. split; [exact E|]. rewrite HO in *.
  set (len := sm_length (un_sample u)) in *. set (mode := mode_of u) in *. set (s := pos_of u) in *.
  pose proof (reach_once mode len s Q1 Q2 Q3) as R. change (forall k, 0 <= position u (Z.of_nat k) < len -> reach k mode len None s = mk_spos (position u (Z.of_nat k)) (fraction u (Z.of_nat k)) (q_speed s) false) in R.
  assert (ST : forall k, 0 <= position u (Z.of_nat k) < len -> ~ 0 <= position u (Z.of_nat k + 1) < len -> q_halt (reach (Datatypes.S k) mode len None s) = true) by (intros k B O; apply (reach_stop mode len s k M1 M2 Q1 Q2 Q3 B O)).
  assert (IN : forall k, q_halt (reach k mode len None s) = false -> 0 <= position u (Z.of_nat k) < len).
  { induction k as [|k IH]; intros H.
    - destruct (raw_0 s Q3) as (R0 & _). change (raw_pos s 0) with (position u 0) in R0. cbn [Z.of_nat]. rewrite R0. exact Q2.
    - assert (HK : q_halt (reach k mode len None s) = false).
      { destruct (q_halt (reach k mode len None s)) eqn:Q; [|reflexivity]. rewrite reach_S in H. unfold advance in H. rewrite Q in H. congruence. }
      specialize (IH HK). replace (Z.of_nat (Datatypes.S k)) with (Z.of_nat k + 1) by lia. assert (D : 0 <= position u (Z.of_nat k + 1) < len \/ ~ 0 <= position u (Z.of_nat k + 1) < len) by lia. destruct D as [D|D]; [exact D|].
      rewrite (ST k IH D) in H. discriminate H. }
  split; [|split].
  - intros j B P. pose proof (begun_nat _ _ _ _ B) as BN. pose proof (proj1 B) as J0.
    assert (RJ : reach (Z.to_nat j) mode len None s = mk_spos (position u j) (fraction u j) (q_speed s) false) by (rewrite R; rewrite Z2Nat.id by lia; [reflexivity|exact P]). split.
    + intros t H. rewrite (heard_play _ _ _ _ _ _ (Z.to_nat j)); rewrite ?RJ; cbn [q_halt q_pos q_frac]; try assumption; try reflexivity.
      * rewrite Z2Nat.id by lia. apply H.
      * intros _ HS. pose proof (IN _ HS) as PS. rewrite R by exact PS. cbn [q_frac]. replace (Z.of_nat (Datatypes.S (Z.to_nat j))) with (j + 1) by lia. apply H.
    + intros O. pose proof (ST (Z.to_nat j)) as SJ. rewrite Z2Nat.id in SJ by lia. specialize (SJ P O). split.
      * assert (HU : q_halt (pos_of u') = true).
        { rewrite PU. set (m := Z.to_nat (before (now + un_time u) 1048576 (horizon now now rs))) in *. replace m with (Datatypes.S (Z.to_nat j) + (m - Datatypes.S (Z.to_nat j)))%nat by lia. rewrite reach_add, reach_halted by exact SJ. exact SJ. }
        unfold pos_of in HU. cbn [q_halt] in HU. lia.
      * intros t H. rewrite (heard_play _ _ _ _ _ _ (Z.to_nat j)); rewrite ?RJ; cbn [q_halt q_pos q_frac]; try assumption; try reflexivity.
        -- rewrite Z2Nat.id by lia. exact H.
        -- intros _ HS. congruence.
  - intros H. assert (HU : q_halt (pos_of u') = false).
    { rewrite PU. set (m := Z.to_nat (before (now + un_time u) 1048576 (horizon now now rs))) in *. assert (K : (m <= m)%nat) by lia. revert K. generalize m at 1 3. intros k. destruct k as [|k]; intros K; [exact Q1|].
      rewrite R; [reflexivity|]. pose proof (H (Z.of_nat k) (nat_begun u now rs k ltac:(fold m; lia))) as HK. replace (Z.of_nat (Datatypes.S k)) with (Z.of_nat k + 1) by lia. exact HK. }
    unfold pos_of in HU. cbn [q_halt] in HU. lia.
  - eapply Forall_impl; [|apply play_times]. intros tp (j & J & HJ & F). exists (Z.of_nat j). split; [apply nat_begun; exact J|]. pose proof (IN j HJ) as P. split; [exact P|]. rewrite F, R by exact P. reflexivity.
Qed.

(** A sample which is played there and back, with a whole number [k] of frames per step: the
    frames to the last one, and back from the last one. *)
Theorem C114_palindrome fuel u c n now rs k : sounds u n c -> mode_of u = BK_PALINDROME -> hold_of u = None -> rounds_good fuel rs -> sm_period (un_sample u) = k * 1048576 ->
  let len := sm_length (un_sample u) in
  let start := if 0 <=? k then ph_phase (un_phase u) else 2 * len - 1 - ph_phase (un_phase u) in
  exists u' l, rounds fuel u c now rs = Ok (u', l) /\
    (forall j t, begun u now rs j -> moment u now 0 + j * 1048576 <= t < moment u now 0 + (j + 1) * 1048576 ->
       lastp u c + heard l t = level (vol u c) (frame_at u c (fold_pos len (start + j * Z.abs k)))).
Proof.
  intros SO MO HO G K len start. destruct (sounds_start u n c SO) as (Q1 & Q2 & Q3 & Q4). destruct SO as (S & T & M & CX & CN). pose proof (wf_time u (proj1 S)) as WT. pose proof T as (_ & _ & _ & TP).
  destruct (rounds_play fuel c n rs G CN u now now S T CX ltac:(left; lia)) as (u' & E & _ & PU). exists u'. eexists. split; [exact E|]. rewrite HO, MO in *. fold len.
  assert (PM : sm_repeatMode (un_sample u) = BK_PALINDROME) by (unfold mode_of in MO; destruct (sm_callback (un_sample u)); [discriminate MO|exact MO]). specialize (TP PM). fold len in Q2, Q4, TP.
  pose proof (reach_palindrome len k (pos_of u) Q4 ltac:(lia) Q1 Q2 Q3 K) as R. cbv zeta in R. change (q_pos (pos_of u)) with (ph_phase (un_phase u)) in R. fold start in R. change (q_frac (pos_of u)) with (sm_timeFrac (un_sample u)) in *.
  assert (F0 : fraction u 0 = sm_timeFrac (un_sample u)) by (unfold fraction; rewrite Z.mul_0_l, Z.add_0_r, Z.mod_small by exact Q3; reflexivity).
  intros j t B H. pose proof (begun_nat _ _ _ _ B) as BN. pose proof (proj1 B) as J0. unfold moment in H. rewrite F0 in H. destruct (R (Z.to_nat j)) as (d & _ & RJ). rewrite Z2Nat.id in RJ by lia.
  rewrite (heard_play _ _ _ _ _ _ (Z.to_nat j)); rewrite ?RJ; cbn [q_halt q_pos q_frac]; try assumption; try reflexivity.
  - rewrite Z2Nat.id by lia. lia.
  - intros _ _. destruct (R (Datatypes.S (Z.to_nat j))) as (d' & _ & ->). cbn [q_frac]. lia.
Qed.

(** ** Examples *)

Definition tiny : wdata := mk_wdata 5 1 [1000; -2000; 3000; -4000; 5000].
Definition tiny_ops (mode speed : Z) : list uop := [UAttach 2 0; UPtr BK_SAMPLE (PData tiny); UAttr BK_PERIOD 100; UAttr BK_VOLUME 32768; UAttr BK_SAMPLE_REPEAT mode; UAttr BK_SAMPLE_PERIOD speed].
Definition tiny_unit (mode speed : Z) : bkunit := unit_after BK_SQUARE (tiny_ops mode speed).
Definition swift : list (Z * Z) := [(3000000, 2500000); (4000000, 4000000); (3000000, 3000000)].

Lemma tiny_ok : wdata_ok tiny.
Proof. repeat split; try (vm_compute; congruence). repeat constructor; unfold is_frame; lia. Qed.
Ltac tiny_ops_ok := repeat (apply Forall_cons); try apply Forall_nil; cbn [uop_ok ptr_ok];
  first [exact I | split; [lia|reflexivity] | reflexivity | split; [reflexivity|]; split; [tauto|]; split; [tauto|]; first [exact tiny_ok | split; reflexivity]
        | split; [reflexivity|]; split; [tauto|exact I] | split; reflexivity].
Lemma tiny_safe mode speed : (mode, speed) = (BK_REPEAT, 1572864) \/ (mode, speed) = (BK_NO_REPEAT, 1572864) \/ (mode, speed) = (BK_PALINDROME, 2097152) -> unit_safe (tiny_unit mode speed).
Proof.
  intros D. destruct (history_unit 5000 BK_SQUARE (tiny_ops mode speed)) as (u & ls & E & S1).
  - destruct D as [D|[D|D]]; assert (Q : mode = fst (mode, speed) /\ speed = snd (mode, speed)) by (split; reflexivity); rewrite D in Q; cbn [fst snd] in Q; destruct Q as [-> ->]; unfold tiny_ops; tiny_ops_ok.
  - intros u E. vm_compute in E. injection E as <-. destruct D as [D|[D|D]]; assert (Q : mode = fst (mode, speed) /\ speed = snd (mode, speed)) by (split; reflexivity); rewrite D in Q; cbn [fst snd] in Q; destruct Q as [-> ->]; steps.
  - unfold tiny_unit, unit_after. rewrite E. exact S1.
Qed.
Lemma swift_good fuel : 5000000 <= Z.of_nat fuel -> rounds_good fuel swift.
Proof. intros F. unfold rounds_good, swift. repeat constructor; cbn [fst snd]; lia. Qed.

(** One and a half frames per step, in three rounds: frames 0, 1, 3, 4, 1 of the repeated sample. *)
Example C114_example : let u := tiny_unit BK_REPEAT 1572864 in
  sounds u 2 1 /\ mode_of u = BK_REPEAT /\ hold_of u = None /\ horizon 0 0 swift = 9500000 /\ (begun u 0 swift 4 /\ ~ begun u 0 swift 10) /\
  map (position u) [0; 1; 2; 3; 4] = [0; 1; 3; 4; 6] /\ map (fraction u) [0; 1; 2] = [0; 524288; 0] /\
  map (fun j => frame_at u 1 (position u j mod 5)) [0; 1; 2; 3; 4] = [1000; -2000; -4000; 5000; -2000] /\
  match rounds 2000 u 1 0 swift with
  | Ok (_, l) => length l = 10%nat /\ map (fun j => heard l (moment u 0 j)) [0; 1; 2; 3; 4] = [999; -2000; -4000; 4999; -2000]
  | Err _ => False
  end.
Proof.
  cbv zeta. split; [|split; [reflexivity|split; [reflexivity|split; [reflexivity|split; [|vm_compute; repeat split]]]]].
  - split; [apply tiny_safe; auto|]. split; [vm_compute; repeat split; intros; discriminate|]. split; [reflexivity|]. split; [reflexivity|vm_compute; lia].
  - vm_compute. repeat split; try congruence. intros (_ & X). discriminate X.
Qed.

Example C114_once_example : let u := tiny_unit BK_NO_REPEAT 1572864 in
  sounds u 2 1 /\ mode_of u = BK_NO_REPEAT /\ hold_of u = None /\ (0 <= position u 3 < 5 /\ ~ 0 <= position u 4 < 5) /\
  match rounds 2000 u 1 0 swift with
  | Ok (u', l) => length l = 4%nat /\ un_mute u' = 1 /\ heard l 9000000 = 4999
  | Err _ => False
  end.
Proof.
  cbv zeta. split; [|split; [reflexivity|split; [reflexivity|split; [|vm_compute; repeat split]]]].
  - split; [apply tiny_safe; auto|]. split; [vm_compute; repeat split; intros; discriminate|]. split; [reflexivity|]. split; [reflexivity|vm_compute; lia].
  - vm_compute. repeat split; try congruence. intros (_ & X). discriminate X.
Qed.

(** Two frames per step there and back: frames 0, 2, 4, 3, 1, 1, 3. *)
Example C114_palindrome_example : let u := tiny_unit BK_PALINDROME 2097152 in
  sounds u 2 1 /\ mode_of u = BK_PALINDROME /\ hold_of u = None /\ sm_period (un_sample u) = 2 * 1048576 /\
  map (fun j => fold_pos 5 (0 + j * 2)) [0; 1; 2; 3; 4; 5; 6] = [0; 2; 4; 3; 1; 1; 3] /\
  match rounds 2000 u 1 0 swift with
  | Ok (_, l) => map (fun j => heard l (j * 1048576)) [0; 1; 2; 3; 4; 5; 6] = [999; 2999; 4999; -4000; -2000; -2000; -4000]
  | Err _ => False
  end.
Proof.
  cbv zeta. split; [|split; [reflexivity|split; [reflexivity|split; [reflexivity|split; [reflexivity|vm_compute; reflexivity]]]]].
  split; [apply tiny_safe; auto|]. split; [vm_compute; repeat split; intros; discriminate|]. split; [reflexivity|]. split; [reflexivity|vm_compute; lia].
Qed.

(** * C116 *)

(** With a whole number [k] of frames per step, beginning with a whole frame, every frame is heard
    for exactly one frame of the output. *)
Theorem C116_even_partial fuel u c n now rs k : sounds u n c -> mode_of u = BK_REPEAT -> hold_of u = None -> rounds_good fuel rs ->
  sm_period (un_sample u) = k * 1048576 -> sm_timeFrac (un_sample u) = 0 ->
  exists u' l, rounds fuel u c now rs = Ok (u', l) /\
    forall j t, 0 <= j -> now + un_time u + j * 1048576 <= t < now + un_time u + (j + 1) * 1048576 -> t < horizon now now rs ->
      lastp u c + heard l t = level (vol u c) (frame_at u c ((ph_phase (un_phase u) + j * k) mod sm_length (un_sample u))).
Proof.
  intros SO MO HO G P F. destruct (C114_repeat fuel u c n now rs SO MO HO G) as (u' & l & E & H & _). exists u', l. split; [exact E|]. intros j t J T Z0.
  assert (FR : forall i, fraction u i = 0) by (intros i; unfold fraction; rewrite P, F, Z.add_0_l, Z.mul_assoc; apply Z.mod_mul; lia).
  rewrite (H j t); [|split; [exact J|lia]|unfold moment; rewrite !FR; lia].
  unfold position. rewrite P, F, Z.add_0_l, Z.mul_assoc, Z.div_mul by lia. reflexivity.
Qed.
Lemma even_safe : unit_safe (tiny_unit BK_REPEAT 2097152).
Proof.
  destruct (history_unit 5000 BK_SQUARE (tiny_ops BK_REPEAT 2097152)) as (u & ls & E & S1); [unfold tiny_ops; tiny_ops_ok|intros u E; vm_compute in E; injection E as <-; steps|].
  unfold tiny_unit, unit_after. rewrite E. exact S1.
Qed.
Example C116_example : let u := tiny_unit BK_REPEAT 2097152 in
  sounds u 2 1 /\ mode_of u = BK_REPEAT /\ hold_of u = None /\ sm_period (un_sample u) = 2 * 1048576 /\ sm_timeFrac (un_sample u) = 0 /\
  map (fun j => frame_at u 1 ((0 + j * 2) mod 5)) [0; 1; 2; 3] = [1000; 3000; 5000; -2000].
Proof.
  cbv zeta. split; [|repeat split]. split; [exact even_safe|]. split; [vm_compute; repeat split; intros; discriminate|]. split; [reflexivity|]. split; [reflexivity|vm_compute; lia].
Qed.

(** ** Findings *)

Definition late_ops : list uop := [UAttach 1 0; UPtr BK_SAMPLE (PData tiny); UAttr BK_PERIOD 100; UAttr BK_VOLUME 32768; UAttr BK_SAMPLE_REPEAT BK_REPEAT; UAttr BK_SAMPLE_PERIOD 1572864].
Lemma late_sounds : sounds (unit_after BK_SQUARE late_ops) 1 0.
Proof.
  destruct (history_unit 5000 BK_SQUARE late_ops) as (u & ls & H & S1); [unfold late_ops; tiny_ops_ok|intros u H; vm_compute in H; injection H as <-; steps|].
  split; [unfold unit_after; rewrite H; exact S1|]. split; [vm_compute; repeat split; intros; discriminate|]. split; [reflexivity|]. split; [reflexivity|vm_compute; lia].
Qed.

(** The frame of a step is not heard from the beginning of its output frame: with one and a half
    frames per step, output frame 1 begins with frame 0 of the sample still. *)
Theorem C116_late_refuted : exists u l u', sounds u 1 0 /\ mode_of u = BK_REPEAT /\ hold_of u = None /\ rounds 2000 u 0 0 swift = Ok (u', l) /\
  begun u 0 swift 1 /\ position u 1 = 1 /\ lastp u 0 + heard l (un_time u + 1 * 1048576) = level (vol u 0) (frame_at u 0 0) /\ level (vol u 0) (frame_at u 0 0) <> level (vol u 0) (frame_at u 0 1).
Proof.
  exists (unit_after BK_SQUARE late_ops). destruct (rounds 2000 (unit_after BK_SQUARE late_ops) 0 0 swift) as [[u' l]|] eqn:E; [|vm_compute in E; discriminate E]. exists l, u'.
  split; [|split; [reflexivity|split; [reflexivity|split; [reflexivity|]]]].
  - exact late_sounds.
  - assert (HL : l = match rounds 2000 (unit_after BK_SQUARE late_ops) 0 0 swift with Ok (_, l) => l | Err _ => [] end) by (rewrite E; reflexivity). rewrite HL. clear. vm_compute. repeat split; congruence.
Qed.

(** A unit is silent although it has a sample and the default speed, until BK_PERIOD is set, too:
    to whatever value. *)
Theorem C116_period_refuted : exists ops, Forall uop_ok ops /\
  (exists u ls, history 2000 BK_SQUARE (ops ++ [URun 3000000]) = Ok (u, ls) /\ un_waveform u = BK_SAMPLE /\ un_mute u = 0 /\ sm_period (un_sample u) = 1048576 /\ last ls [] = [[]]) /\
  forall p, p = 1 \/ p = 77 -> exists u ls, history 2000 BK_SQUARE (ops ++ [UAttr BK_PERIOD p; URun 3000000]) = Ok (u, ls) /\ last ls [] = [[(0, 999); (1048576, -2999); (2097152, 4999)]].
Proof.
  exists [UAttach 1 0; UPtr BK_SAMPLE (PData tiny); UAttr BK_VOLUME 32768]. split; [tiny_ops_ok|]. split.
  - eexists _, _. split; [vm_compute; reflexivity|]. vm_compute. repeat split.
  - intros p [-> | ->]; eexists _, _; (split; [vm_compute; reflexivity|]); vm_compute; reflexivity.
Qed.

(** * C115 *)

(** A range which is held and ends before the end of the sample: the unit plays for ever, never
    plays a frame at or behind the end of the range, and none before its beginning once it has
    been there.  The frames which a step plays at most must fit behind the range. *)
Theorem C115_hold_partial fuel u c n now rs a b : sounds u n c -> hold_of u = Some (a, b) -> b < sm_length (un_sample u) -> ph_phase (un_phase u) < b ->
  0 < sm_period (un_sample u) <= (sm_length (un_sample u) - b) * 1048576 -> rounds_good fuel rs ->
  exists u' l, rounds fuel u c now rs = Ok (u', l) /\ un_mute u' = 0 /\
    forall j, begun u now rs j -> exists p, 0 <= p < b /\ (ph_phase (un_phase u) <= p \/ a <= p) /\
      forall t, moment u now j <= t < moment u now (j + 1) -> lastp u c + heard l t = level (vol u c) (frame_at u c p).
Proof.
  intros SO HO BL PB SP G. destruct (sounds_start u n c SO) as (Q1 & Q2 & Q3 & Q4). destruct SO as (S & T & M & CX & CN). pose proof (wf_time u (proj1 S)) as WT.
  destruct (rounds_play fuel c n rs G CN u now now S T CX ltac:(left; lia)) as (u' & E & _ & PU). exists u'. eexists. split; [exact E|]. rewrite HO in *.
  assert (AB : 0 <= a < b).
  { destruct S as (W & _ & SG). specialize (SG (proj1 T)). unfold hold_of in HO. destruct (un_sustain u) eqn:SU; [|discriminate HO]. cbn [andb] in HO. destruct (negb (un_release u)); [|discriminate HO].
    assert (a = sm_sustainOffset (un_sample u) /\ b = sm_sustainEnd (un_sample u)) as (-> & ->) by (split; congruence). pose proof (sg_sustain u SG SU). pose proof (wf_srange u W). lia. }
  pose proof (reach_held (mode_of u) (sm_length (un_sample u)) a b (pos_of u) AB BL Q1 ltac:(change (q_pos (pos_of u)) with (ph_phase (un_phase u)) in *; lia) Q3 SP) as R. cbv zeta in R. split.
  - destruct (R (Z.to_nat (before (now + un_time u) 1048576 (horizon now now rs)))) as (R1 & _). rewrite <- PU in R1. unfold pos_of in R1. cbn [q_halt] in R1. lia.
  - intros j B. pose proof (begun_nat _ _ _ _ B) as BN. pose proof (proj1 B) as J0. destruct (R (Z.to_nat j)) as (R1 & R2 & R3 & R4 & R5). eexists. split; [exact R2|]. split; [exact R3|]. intros t H.
    rewrite (heard_play _ _ _ _ _ _ (Z.to_nat j)); [reflexivity|exact Q3|exact BN|exact R1| |].
    + rewrite R4, Z2Nat.id by lia. apply H.
    + intros _ _. destruct (R (Datatypes.S (Z.to_nat j))) as (_ & _ & _ & -> & _). replace (Z.of_nat (Datatypes.S (Z.to_nat j))) with (j + 1) by lia. apply H.
Qed.

(** At the speed of one frame per step the range is repeated frame by frame. *)
Theorem C115_loop_partial fuel u c n now rs a b : sounds u n c -> hold_of u = Some (a, b) -> b < sm_length (un_sample u) -> ph_phase (un_phase u) < b ->
  sm_period (un_sample u) = 1048576 -> rounds_good fuel rs ->
  exists u' l, rounds fuel u c now rs = Ok (u', l) /\ un_mute u' = 0 /\
    forall j t, begun u now rs j -> moment u now j <= t < moment u now (j + 1) ->
      let i := ph_phase (un_phase u) + j in
      lastp u c + heard l t = level (vol u c) (frame_at u c (if i <? b then i else a + (i - b) mod (b - a))).
Proof.
  intros SO HO BL PB SP G. destruct (sounds_start u n c SO) as (Q1 & Q2 & Q3 & Q4). destruct SO as (S & T & M & CX & CN). pose proof (wf_time u (proj1 S)) as WT.
  destruct (rounds_play fuel c n rs G CN u now now S T CX ltac:(left; lia)) as (u' & E & _ & PU). exists u'. eexists. split; [exact E|]. rewrite HO in *.
  assert (AB : 0 <= a < b).
  { destruct S as (W & _ & SG). specialize (SG (proj1 T)). unfold hold_of in HO. destruct (un_sustain u) eqn:SU; [|discriminate HO]. cbn [andb] in HO. destruct (negb (un_release u)); [|discriminate HO].
    assert (a = sm_sustainOffset (un_sample u) /\ b = sm_sustainEnd (un_sample u)) as (-> & ->) by (split; congruence). pose proof (sg_sustain u SG SU). pose proof (wf_srange u W). lia. }
  pose proof (reach_looped (mode_of u) (sm_length (un_sample u)) a b (pos_of u) AB BL Q1 ltac:(change (q_pos (pos_of u)) with (ph_phase (un_phase u)) in *; lia) Q3 SP) as R. split.
  - rewrite R in PU. apply (f_equal q_halt) in PU. unfold pos_of in PU. cbn [q_halt] in PU. lia.
  - intros j t B H i. pose proof (begun_nat _ _ _ _ B) as BN. pose proof (proj1 B) as J0.
    assert (FR : forall k, fraction u k = q_frac (pos_of u)) by (intros k; unfold fraction; rewrite SP, Z.mod_add by lia; apply Z.mod_small; exact Q3). unfold moment in H. rewrite !FR in H.
    rewrite (heard_play _ _ _ _ _ _ (Z.to_nat j)); rewrite ?R; cbn [q_halt q_pos q_frac]; [|exact Q3|exact BN|reflexivity| |].
    + rewrite Z2Nat.id by lia. reflexivity.
    + rewrite Z2Nat.id by lia. lia.
    + intros _ _. lia.
Qed.

(** Releasing without jump leaves the position and ends the holding: what is heard then is the
    rest of the sample, as C114 has it. *)
Theorem C115_release u n c : sounds u n c -> un_jump u = false -> un_sustain u = true ->
  exists u', BKUnitSetAttr u BK_FLAG_RELEASE 1 = Ok (u', 0) /\ sounds u' n c /\ hold_of u' = None /\ mode_of u' = mode_of u /\ sm_length (un_sample u') = sm_length (un_sample u) /\
    (forall k, frame_at u' k = frame_at u k) /\ (forall k, vol u' k = vol u k) /\ (forall k, lastp u' k = lastp u k) /\ un_time u' = un_time u /\ (forall j, position u' j = position u j) /\ (forall j, fraction u' j = fraction u j).
Proof.
  intros (S & T & M & CX & CN) J SU.
  assert (E : BKUnitSetAttr u BK_FLAG_RELEASE 1 = Ok (set_flags u true (un_jump u) true, 0)).
  { unfold BKUnitSetAttr. cbv zeta. repeat match goal with |- (if ?a =? ?b then _ else _) = _ => let v := eval vm_compute in (a =? b) in replace (a =? b) with v by reflexivity; cbn iota end.
    rewrite SU. change (un_jump (set_flags u true (un_jump u) (negb (1 =? 0)))) with (un_jump u). rewrite J. rewrite andb_false_r. reflexivity. }
  exists (set_flags u true (un_jump u) true). split; [exact E|]. split.
  - split; [|split; [exact T|split; [exact M|split; [exact CX|exact CN]]]]. destruct S as (W & TT & SG). split; [|split].
    + clear - W. wf_destruct W. constructor; ucbn; auto.
    + exact TT.
    + intros Q. specialize (SG Q). clear - SG SU. sg_destruct SG. constructor; ucbn; auto.
  - split; [reflexivity|]. repeat split.
Qed.

Definition hold_ops (mode speed a b : Z) : list uop :=
  [UAttach 2 0; UPtr BK_SAMPLE (PData tiny); UAttr BK_PERIOD 100; UAttr BK_VOLUME 32768; UAttr BK_SAMPLE_REPEAT mode; UPtr BK_SAMPLE_SUSTAIN_RANGE (PRange a b); UAttr BK_SAMPLE_PERIOD speed].
Ltac hold_steps := vm_compute; repeat split; intros; try discriminate; auto; try (left; discriminate); try (right; reflexivity);
  match goal with H : Some _ = Some ?d |- _ => injection H as <-; match goal with G : _ = Gt |- _ => vm_compute in G; discriminate G end | _ => idtac end.
Lemma hold_safe mode speed a b ops : ops = hold_ops mode speed a b -> Forall uop_ok ops -> (forall u, BKUnitInit BK_SQUARE = Ok u -> all_steps (fun u o => uop_careful u o /\ uop_timely 5000 u o) 5000 u ops) -> unit_safe (unit_after BK_SQUARE ops).
Proof. intros _ O A. destruct (history_unit 5000 BK_SQUARE ops O A) as (u & ls & E & S1). unfold unit_after. rewrite E. exact S1. Qed.

(** Frames 0, 1, 2, 1, 2, 1, ... of a sample whose frames 1 and 2 are held. *)
Example C115_example : let u := unit_after BK_SQUARE (hold_ops BK_NO_REPEAT 1048576 1 3) in
  sounds u 2 1 /\ hold_of u = Some (1, 3) /\ sm_length (un_sample u) = 5 /\ ph_phase (un_phase u) = 0 /\ sm_period (un_sample u) = 1048576 /\ un_jump u = false /\ un_sustain u = true /\
  match rounds 2000 u 1 0 swift with
  | Ok (_, l) => map (fun j => heard l (j * 1048576)) [0; 1; 2; 3; 4; 5] = [999; -2000; 2999; -2000; 2999; -2000]
  | Err _ => False
  end.
Proof.
  cbv zeta. split; [|split; [reflexivity|split; [reflexivity|split; [reflexivity|split; [reflexivity|split; [reflexivity|split; [reflexivity|vm_compute; reflexivity]]]]]]].
  split; [apply (hold_safe BK_NO_REPEAT 1048576 1 3); [reflexivity|unfold hold_ops; tiny_ops_ok|intros u E; vm_compute in E; injection E as <-; hold_steps]|]. split; [vm_compute; repeat split; intros; discriminate|]. split; [reflexivity|]. split; [reflexivity|vm_compute; lia].
Qed.

Lemma end_sounds : sounds (unit_after BK_SQUARE (hold_ops BK_NO_REPEAT 1048576 1 (-1))) 2 1.
Proof.
  split; [apply (hold_safe BK_NO_REPEAT 1048576 1 (-1)); [reflexivity|unfold hold_ops; tiny_ops_ok|intros u H; vm_compute in H; injection H as <-; hold_steps]|]. split; [vm_compute; repeat split; intros; discriminate|]. split; [reflexivity|]. split; [reflexivity|vm_compute; lia].
Qed.

(** A range up to the end of the sample is not held: the sample ends though it is not released. *)
Theorem C115_end_refuted : exists u u' l, sounds u 2 1 /\ hold_of u = Some (1, 5) /\ sm_length (un_sample u) = 5 /\ sm_period (un_sample u) = 1048576 /\
  rounds 2000 u 1 0 swift = Ok (u', l) /\ un_mute u' = 1 /\ un_release u' = false /\ length l = 5%nat.
Proof.
  exists (unit_after BK_SQUARE (hold_ops BK_NO_REPEAT 1048576 1 (-1))). destruct (rounds 2000 (unit_after BK_SQUARE (hold_ops BK_NO_REPEAT 1048576 1 (-1))) 1 0 swift) as [[u' l]|] eqn:E; [|vm_compute in E; discriminate E]. exists u', l.
  split; [|split; [reflexivity|split; [reflexivity|split; [reflexivity|split; [reflexivity|]]]]].
  - exact end_sounds.
  - assert (HL : (un_mute u', un_release u', length l) = match rounds 2000 (unit_after BK_SQUARE (hold_ops BK_NO_REPEAT 1048576 1 (-1))) 1 0 swift with Ok (u', l) => (un_mute u', un_release u', length l) | Err _ => (0, true, O) end) by (rewrite E; reflexivity).
    match type of HL with _ = ?r => replace r with (1, false, 5%nat) in HL by (vm_compute; reflexivity) end. split; [congruence|]. split; congruence.
Qed.

Lemma pitch_sounds : sounds (unit_after BK_SQUARE (hold_ops BK_NO_REPEAT 2097152 0 3)) 2 1.
Proof.
  split; [apply (hold_safe BK_NO_REPEAT 2097152 0 3); [reflexivity|unfold hold_ops; tiny_ops_ok|intros u H; vm_compute in H; injection H as <-; hold_steps]|]. split; [vm_compute; repeat split; intros; discriminate|]. split; [reflexivity|]. split; [reflexivity|vm_compute; lia].
Qed.

(** The frames of a step which reach over the end of the range are lost: at two frames per step
    the range of three frames is heard as frames 0, 2, 0, 2, as if it had four.  A repeated sample
    of three frames goes on with frame 1. *)
Theorem C115_pitch_refuted : exists u u' l, sounds u 2 1 /\ hold_of u = Some (0, 3) /\ sm_period (un_sample u) = 2 * 1048576 /\ rounds 2000 u 1 0 swift = Ok (u', l) /\
  begun u 0 swift 2 /\ (position u 2 - 0) mod (3 - 0) = 1 /\ lastp u 1 + heard l (moment u 0 2) = level (vol u 1) (frame_at u 1 0) /\ level (vol u 1) (frame_at u 1 0) <> level (vol u 1) (frame_at u 1 1).
Proof.
  exists (unit_after BK_SQUARE (hold_ops BK_NO_REPEAT 2097152 0 3)). destruct (rounds 2000 (unit_after BK_SQUARE (hold_ops BK_NO_REPEAT 2097152 0 3)) 1 0 swift) as [[u' l]|] eqn:E; [|vm_compute in E; discriminate E]. exists u', l.
  split; [|split; [reflexivity|split; [reflexivity|split; [reflexivity|]]]].
  - exact pitch_sounds.
  - assert (HL : l = match rounds 2000 (unit_after BK_SQUARE (hold_ops BK_NO_REPEAT 2097152 0 3)) 1 0 swift with Ok (_, l) => l | Err _ => [] end) by (rewrite E; reflexivity). rewrite HL. clear. vm_compute. repeat split; congruence.
Qed.

Print Assumptions C114_repeat.
Print Assumptions C114_once.
Print Assumptions C114_palindrome.
Print Assumptions C114_example.
Print Assumptions C114_once_example.
Print Assumptions C114_palindrome_example.
Print Assumptions C116_even_partial.
Print Assumptions C116_example.
Print Assumptions C116_late_refuted.
Print Assumptions C116_period_refuted.
Print Assumptions C115_hold_partial.
Print Assumptions C115_loop_partial.
Print Assumptions C115_release.
Print Assumptions C115_example.
Print Assumptions C115_end_refuted.
Print Assumptions C115_pitch_refuted.
