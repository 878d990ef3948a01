(** Proofs about a channel which gets no more pulses: its audio fades to silence (C101). *)
From Verif Require Import CIntFacts BufferModel BufferSpec BufferProofs BufferProofs2.
Ltac Zify.zify_post_hook ::= idtac.

(** One step of the filter without input, and its iteration. *)
Definition decay (a : Z) : Z := a - a / 512.
Fixpoint decays (n : nat) (a : Z) : Z :=
  match n with O => a | S n => decays n (decay a) end.

Lemma decay_mono a b : a <= b -> decay a <= decay b.
Proof. unfold decay. intros H. Z.div_mod_to_equations. lia. Qed.
Lemma decays_mono n : forall a b, a <= b -> decays n a <= decays n b.
Proof. induction n as [|n IH]; intros a b H; [exact H|]. cbn [decays]. apply IH, decay_mono, H. Qed.
Lemma decays_add n m a : decays (n + m) a = decays m (decays n a).
Proof. revert a. induction n as [|n IH]; intros a; [reflexivity|]. cbn [decays Nat.add]. apply IH. Qed.
Lemma decay_pos a : 0 <= a -> 0 <= decay a <= a.
Proof. unfold decay. intros H. Z.div_mod_to_equations. lia. Qed.
Lemma decays_pos n : forall a, 0 <= a -> 0 <= decays n a <= a.
Proof. induction n as [|n IH]; intros a H; cbn [decays]; [lia|]. pose proof (decay_pos a H). specialize (IH (decay a)). lia. Qed.

Definition fade : nat := Z.to_nat 8096.
Lemma fade_bounds : decays fade (-2147483648) = 0 /\ decays fade 2147483647 < 16384.
Proof. split; vm_compute; reflexivity. Qed.
Lemma fade_val : Z.of_nat fade = 8096.
Proof. unfold fade. lia. Qed.

Lemma faded n a : is_s32 a -> (fade <= n)%nat -> 0 <= decays n a < 16384.
Proof.
  unfold is_s32. intros H L. destruct fade_bounds as (B1 & B2).
  replace n with (fade + (n - fade))%nat by lia. rewrite decays_add.
  pose proof (decays_mono fade (-2147483648) a ltac:(lia)). pose proof (decays_mono fade a 2147483647 ltac:(lia)).
  pose proof (decays_pos (n - fade) (decays fade a) ltac:(lia)). lia.
Qed.

Lemma integrate_nth_zero d : forall a i, (i < length d)%nat -> (forall k, (k <= i)%nat -> nth k d 0 = 0) ->
  nth i (integrate a d) 0 = decays (S i) a.
Proof.
  induction d as [|x d IH]; intros a i L Z; [cbn in L; lia|]. cbn [integrate].
  assert (x = 0) by (apply (Z O); lia). subst x. replace (a - a / 512 + 0) with (decay a) by (unfold decay; lia).
  destruct i as [|i]; [reflexivity|]. cbn [nth decays length] in *. apply IH; [lia|].
  intros k Hk. apply (Z (S k)). lia.
Qed.

Lemma Forall_nth_Z (P : Z -> Prop) l i : Forall P l -> (i < length l)%nat -> P (nth i l 0).
Proof. intros F L. rewrite Forall_forall in F. apply F, nth_In, L. Qed.

(** After [e] frames without input the filter's output becomes silence. *)
Lemma integrate_silent d : forall a e i, Forall is_s32 (integrate a d) -> is_s32 a ->
  (forall k, (e <= k < length d)%nat -> nth k d 0 = 0) -> (e + fade <= i < length d)%nat ->
  0 <= nth i (integrate a d) 0 < 16384.
Proof.
  induction d as [|x d IH]; intros a e i F A Z L; [cbn in L; lia|].
  destruct e as [|e].
  - rewrite integrate_nth_zero; [apply faded; [exact A|lia]|lia|]. intros k Hk. apply Z. lia.
  - destruct i as [|i]; [lia|]. cbn [integrate nth]. cbn [integrate] in F. inversion F as [|y l F1 F2]; subst.
    apply (IH _ e); [exact F2|exact F1| |cbn [length] in L; lia].
    intros k Hk. apply (Z (S k)). cbn [length]. lia.
Qed.

(** Between rounds: frames from [E] on are empty. *)
Definition clean (b : buffer) (now rd : Z) (E : Z) : Prop :=
  buffer_ok b /\ b_time b = b_capacity b * 1048576 /\ b_time b <= now - rd * 1048576 /\ E <= b_capacity b + 33 /\
  (forall j, 0 <= j -> E <= j -> cell (b_frames b) j = 0).


Lemma round_clean b now rd E r b' s :
  clean b now rd E ->
  0 <= r_end r ->
  (forall t p, In (t, p) (r_pulses r) -> 0 <= t <= r_end r /\ is_s16 p) ->
  now + r_end r - rd * 1048576 < 4294967296 ->
  0 <= r_read r <= (now + r_end r) / 1048576 - rd ->
  round_run b (r_pulses r) (r_end r) (r_read r) = Ok (b', s) ->
  forall M, E <= M -> (r_pulses r = [] \/ (b_time b + r_end r) / 1048576 + 32 <= M) ->
  exists d, length s = length d /\ Z.of_nat (length s) <= r_read r /\
    clean b' (now + r_end r) (rd + r_read r) (Z.min M (b_capacity b' + Z.of_nat (length s) + 33) - Z.of_nat (length s)) /\
    s = map saturate (integrate (b_accum b) d) /\ b_accum b' = integrate_end (b_accum b) d /\
    Forall is_s32 (integrate (b_accum b) d) /\ (forall k, (k < length d)%nat -> M <= Z.of_nat k -> nth k d 0 = 0).
Proof.
  intros (I1 & I2 & I3 & I4 & I5) Hte Hp Hr Hn R M EM HM. pose proof capacity_val as Hcap.
  unfold round_run in R. apply bind_ok in R as (b1 & E1 & R).
  destruct (add_all_spec _ _ _ I1 E1) as (O1 & W1 & C1).
  assert (T1 : b_time b1 = b_time b) by (rewrite W1; reflexivity).
  assert (A1 : b_accum b1 = b_accum b) by (rewrite W1; reflexivity).
  assert (Cap1 : b_capacity b1 = b_capacity b) by (rewrite W1; reflexivity).
  assert (Hcapr : 0 <= b_capacity b <= 4095) by apply I1.
  assert (Htr : 0 <= b_time b < 4294967296) by apply I1.
  set (te := r_end r) in *. set (n := r_read r) in *.
  set (b2 := BKBufferEnd b1 te) in *. set (b3 := BKBufferShift b2 te) in *.
  assert (O2 : buffer_ok b2) by (apply end_ok, O1).
  assert (O3 : buffer_ok b3) by (apply shift_ok, O2).
  assert (C2 : b_capacity b2 = (b_time b + te) / 1048576).
  { unfold b2, BKBufferEnd; cbn [b_capacity]. rewrite Cap1, T1. rewrite u32_id by lia. rewrite off_eq.
    assert (b_capacity b <= (b_time b + te) / 1048576) by (apply Z.div_le_lower_bound; lia).
    destruct (_ >? b_capacity b) eqn:?; lia. }
  assert (Hc2 : 0 <= b_capacity b2 <= 4095) by apply O2.
  assert (DM := Z.div_mod (b_time b + te) 1048576 ltac:(lia)). assert (DB := Z.mod_pos_bound (b_time b + te) 1048576 ltac:(lia)).
  assert (T3 : b_time b3 = b_capacity b2 * 1048576).
  { unfold b3, BKBufferShift; cbn [b_time].
    unfold BK_FINT20_SHIFT. rewrite Z.shiftl_mul_pow2 by lia. change (2 ^ 20) with 1048576.
    rewrite (u32_id (b_capacity b2 * 1048576)) by lia.
    assert (T2 : b_time b2 = b_time b) by (unfold b2, BKBufferEnd; cbn [b_time]; exact T1).
    rewrite T2. rewrite (u32_id (b_time b + te)) by lia.
    destruct (b_time b + te >? b_capacity b2 * 1048576) eqn:G.
    - rewrite (u32_id (b_capacity b2 * 1048576 - b_time b)) by lia. rewrite u32_id; lia.
    - rewrite u32_id; lia. }
  assert (CZ : forall j, 0 <= j -> Z.min M (b_capacity b2 + 33) <= j -> cell (b_frames b3) j = 0).
  { intros j Hj HMj. change (b_frames b3) with (b_frames b1). rewrite C1 by lia.
    assert (TOP : cell (b_frames b) j = 0) by (apply I5; lia). rewrite TOP, Z.add_0_l. destruct HM as [HM|HM].
    - rewrite HM. reflexivity.
    - apply pulses_at_zero. intros t p Hin. unfold local_pulses in Hin. apply in_map_iff in Hin as ([t' p'] & Eq & Hin).
      cbn [fst snd] in Eq. assert (t = u32 (b_time b + t')) by congruence. subst t. clear Eq.
      destruct (Hp _ _ Hin) as [Q _]. rewrite u32_id by lia. apply pulse_at_after.
      assert ((b_time b + t') / 1048576 <= (b_time b + te) / 1048576) by (apply Z.div_le_mono; lia). lia. }
  assert (L3 : length (b_frames b3) = BK_BUFFER_CAPACITY) by apply O3.
  assert (Hn0 : 0 <= n) by lia.
  destruct (read_samples _ _ _ _ O3 Hn0 R) as (S1 & S2 & S3).
  change (b_capacity b3) with (b_capacity b2) in *. change (b_accum b3) with (b_accum b1) in *. rewrite A1 in *.
  set (m := BKMin n (b_capacity b2)) in *.
  assert (Hm : 0 <= m <= n /\ m <= b_capacity b2 /\ (m = n \/ m = b_capacity b2)) by (unfold m, BKMin; destruct (n <? b_capacity b2) eqn:?; lia).
  assert (O4 := read_ok _ _ _ _ O3 Hn0 R).
  assert (B4 := R). rewrite read_unfold in B4 by assumption. cbv zeta in B4. change (b_capacity b3) with (b_capacity b2) in B4. fold m in B4.
  assert (SA : is_s32 (b_accum b3)) by (destruct O3 as (_ & _ & _ & _ & O3 & _); exact O3).
  destruct (read_loop_spec (firstn (Z.to_nat m) (b_frames b3)) (b_accum b3) SA) as [(a' & RL & _ & _ & FA)|(RL & _)];
    [|rewrite RL in B4; discriminate B4].
  rewrite RL in B4. cbn [bind fst snd] in B4.
  assert (B4' := f_equal (fun x => match x with Ok y => fst y | Err _ => b end) B4). cbn [fst] in B4'.
  assert (F4 : b_frames b' = read_frames (b_frames b3) m (b_capacity b2)) by (rewrite <- B4'; reflexivity).
  assert (C4 : b_capacity b' = b_capacity b2 - m) by (rewrite <- B4'; reflexivity).
  assert (T4 : b_time b' = u32 (b_time b3 - m * 1048576)) by (rewrite <- B4'; reflexivity).
  change (b_accum b3) with (b_accum b1) in FA. rewrite A1 in FA.
  exists (firstn (Z.to_nat m) (b_frames b3)).
  split; [rewrite S1, map_length, integrate_length; reflexivity|]. split; [lia|]. split.
  { rewrite T3, u32_id in T4 by lia. unfold clean. rewrite C4, S2.
    split; [exact O4|]. split; [lia|]. split.
    - rewrite T4. destruct Hm as (Hm1 & Hm2 & [Hm3|Hm3]); [lia|].
      assert (X := Z.div_mod (now + te) 1048576 ltac:(lia)). assert (Y := Z.mod_pos_bound (now + te) 1048576 ltac:(lia)). lia.
    - split; [lia|]. intros j Hj HE. rewrite F4, cell_read_frames by lia.
      destruct (j <? b_capacity b2 + 33 - m) eqn:G1; [apply CZ; lia|].
      destruct (j <? b_capacity b2 + 33) eqn:G2; [reflexivity|]. apply CZ; lia. }
  split; [exact S1|]. split; [exact S3|]. split; [exact FA|].
  intros k Hk HMk. rewrite firstn_length in Hk. rewrite nth_firstn_lt by lia.
  specialize (CZ (Z.of_nat k) ltac:(lia) ltac:(lia)). unfold cell in CZ. rewrite Nat2Z.id in CZ. exact CZ.
Qed.

(** All rounds with pulses end at least 32 frames before frame [M]. *)
Fixpoint done_by (M now : Z) (rs : list round) : Prop :=
  match rs with
  | [] => True
  | r :: rs => (r_pulses r = [] \/ (now + r_end r) / 1048576 + 32 <= M) /\ done_by M (now + r_end r) rs
  end.

Lemma run_clean M rs : forall b now rd act E b' s, clean b now rd E -> 0 <= act <= rd -> E + act <= M ->
  rounds_ok now rd rs -> done_by M now rs -> rounds_run b (raw_rounds rs) = Ok (b', s) ->
  exists d, s = map saturate (integrate (b_accum b) d) /\ Forall is_s32 (integrate (b_accum b) d) /\
    (forall k, (k < length d)%nat -> M <= act + Z.of_nat k -> nth k d 0 = 0).
Proof.
  induction rs as [|r rs IH]; intros b now rd act E b' s C A EM R D RUN.
  - cbn in RUN. assert (s = []) by congruence. subst s. exists []. cbn. repeat split; [constructor|]. intros; lia.
  - cbn [raw_rounds map rounds_run] in RUN. fold (raw_rounds rs) in RUN.
    apply bind_ok in RUN as ([b1 s1] & E1 & RUN). apply bind_ok in RUN as ([b2 s2] & E2 & RUN).
    cbn [fst snd] in *. assert (s = s1 ++ s2) by congruence. subst s. clear RUN.
    cbn [rounds_ok done_by] in R, D. destruct R as (R1 & R2 & R3 & R4 & R5). destruct D as (D1 & D2).
    assert (HT : b_time b <= now - act * 1048576) by (destruct C as (_ & _ & C3 & _); lia).
    destruct (round_clean _ _ _ _ _ _ _ C R1 R2 R3 R4 E1 (M - act) ltac:(lia)) as (d1 & L1 & L2 & C' & S' & A' & F' & Z').
    { destruct D1 as [D1|D1]; [left; exact D1|right].
      assert ((b_time b + r_end r) / 1048576 <= (now + r_end r + (- act) * 1048576) / 1048576) by (apply Z.div_le_mono; lia).
      rewrite Z.div_add in H by lia. lia. }
    destruct (IH _ _ _ (act + Z.of_nat (length s1)) _ _ _ C' ltac:(lia) ltac:(lia) R5 D2 E2) as (d2 & S2 & F2 & Z2).
    rewrite A' in S2, F2. exists (d1 ++ d2). rewrite integrate_app, map_app. split; [congruence|]. split; [apply Forall_app; auto|].
    intros k Hk HM. rewrite app_length in Hk. destruct (Nat.ltb_spec k (length d1)).
    + rewrite app_nth1 by lia. apply Z'; lia.
    + rewrite app_nth2 by lia. apply Z2; lia.
Qed.

(** Time covered by a history. *)
Definition rounds_time (rs : list round) : Z := zsum (map r_end rs).

Lemma done_quiet M qs : Forall (fun r => r_pulses r = []) qs -> forall now, done_by M now qs.
Proof. induction 1; intros now; cbn [done_by]; auto. Qed.
Lemma time_nonneg rs : forall now rd, rounds_ok now rd rs -> 0 <= rounds_time rs.
Proof.
  unfold rounds_time. induction rs as [|r rs IH]; intros now rd R; cbn [map zsum fold_right]; [lia|].
  cbn [rounds_ok] in R. destruct R as (R1 & _ & _ & _ & R5). specialize (IH _ _ R5). unfold zsum in IH. lia.
Qed.
Lemma rounds_ok_app rs qs : forall now rd, rounds_ok now rd (rs ++ qs) -> rounds_ok now rd rs.
Proof. induction rs as [|r rs IH]; intros now rd R; cbn [rounds_ok app] in *; [exact I|]. destruct R as (? & ? & ? & ? & R). split; [assumption|]. split; [assumption|]. split; [assumption|]. split; [assumption|]. apply (IH _ _ R). Qed.
Lemma done_app M qs rs : Forall (fun r => r_pulses r = []) qs -> forall now rd, rounds_ok now rd rs -> (now + rounds_time rs) / 1048576 + 32 <= M ->
  done_by M now (rs ++ qs).
Proof.
  intros Q. induction rs as [|r rs IH]; intros now rd R H; [apply done_quiet, Q|]. cbn [app done_by rounds_ok] in *.
  destruct R as (R1 & _ & _ & _ & R5). pose proof (time_nonneg _ _ _ R5).
  assert (ET : rounds_time (r :: rs) = r_end r + rounds_time rs) by reflexivity. rewrite ET in H. split.
  - right. assert ((now + r_end r) / 1048576 <= (now + (r_end r + rounds_time rs)) / 1048576) by (apply Z.div_le_mono; lia). lia.
  - apply (IH _ _ R5). replace (now + r_end r + rounds_time rs) with (now + (r_end r + rounds_time rs)) by lia. exact H.
Qed.

Lemma init_clean K : kernel_ok K -> clean (mk_buffer 0 0 0 (repeat 0 BK_BUFFER_CAPACITY) K) 0 0 0.
Proof.
  intros HK. destruct (init_stream K HK) as (O & _). split; [exact O|]. cbn [b_time b_capacity b_frames]. split; [lia|]. split; [lia|]. split; [lia|].
  intros j _ _. unfold cell. rewrite nth_repeat_any. destruct (Nat.ltb _ _); reflexivity.
Qed.

Lemma silence K rs qs b' s : kernel_ok K -> rounds_ok 0 0 (rs ++ qs) -> Forall (fun r => r_pulses r = []) qs ->
  rounds_run (mk_buffer 0 0 0 (repeat 0 BK_BUFFER_CAPACITY) K) (raw_rounds (rs ++ qs)) = Ok (b', s) ->
  forall j, rounds_time rs / 1048576 + 8128 <= Z.of_nat j -> (j < length s)%nat -> nth j s 0 = 0.
Proof.
  intros HK R Q RUN j Hj L. set (M := rounds_time rs / 1048576 + 32).
  assert (TN := time_nonneg rs 0 0 (rounds_ok_app _ _ _ _ R)). assert (0 <= rounds_time rs / 1048576) by (apply Z.div_pos; lia).
  destruct (run_clean M (rs ++ qs) _ 0 0 0 0 b' s (init_clean K HK) ltac:(lia) ltac:(lia) R) as (d & S & F & Z); [|exact RUN|].
  { apply (done_app M qs rs Q 0 0 (rounds_ok_app _ _ _ _ R)). rewrite Z.add_0_l. unfold M. lia. }
  cbn [b_accum] in *. rewrite S, map_length, integrate_length in L. rewrite S.
  rewrite (nth_indep _ 0 (saturate 0)) by (rewrite map_length, integrate_length; exact L). rewrite map_nth.
  assert (0 <= nth j (integrate 0 d) 0 < 16384).
  { pose proof fade_val. apply (integrate_silent d 0 (Z.to_nat M) j F); [unfold is_s32; lia| |unfold M in *; lia]. intros k Hk. apply Z; lia. }
  unfold saturate. assert (nth j (integrate 0 d) 0 / 16384 = 0) by (apply Z.div_small; lia). rewrite H1. reflexivity.
Qed.
