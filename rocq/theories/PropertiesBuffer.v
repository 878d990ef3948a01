(** Properties of the channel buffer (BKBuffer): C01 - C06, C67. *)
From Verif Require Import CIntFacts Kernels BufferModel BufferSpec BufferProofs BufferProofs2.
From Coq Require Import Permutation.

(** ** C01 *)

(** No history of buffer operations, with whatever arguments, accesses memory
    outside the buffer or the kernel; the only undefined outcome left is
    integer overflow of a sample. *)
Theorem C01_no_out_of_bounds : forall ops e, bruns BKBufferInit ops = Err e -> e = EOverflow.
Proof. intros ops e. exact (bruns_err ops BKBufferInit e init_ok). Qed.

(** Every reachable buffer is well formed (the hypothesis of the theorems below). *)
Theorem C01_reachable_ok : forall ops b s, bruns BKBufferInit ops = Ok (b, s) -> buffer_ok b.
Proof. intros ops b s H. exact (bruns_ok ops BKBufferInit (b, s) init_ok H). Qed.

(** A pulse changes at most 32 consecutive frames, all inside the storage of
    4129 frames, by the scaled kernel row. *)
Theorem C01_pulse_in_bounds : forall b t p b', buffer_ok b -> BKBufferAddPulse b t p = Ok b' ->
  let T := (b_time b + t) mod 4294967296 in
  0 <= T / 1048576 /\ T / 1048576 + 32 <= 4129 /\
  length (b_frames b') = length (b_frames b) /\ Z.of_nat (length (b_frames b)) = 4129 /\
  (forall j, 0 <= j -> cell (b_frames b') j = cell (b_frames b) j + pulse_at (b_pulse b) T (s16 p) j) /\
  b_time b' = b_time b /\ b_capacity b' = b_capacity b /\ b_accum b' = b_accum b /\ b_pulse b' = b_pulse b.
Proof.
  intros b t p b' H E T. assert (L : length (b_frames b) = BK_BUFFER_CAPACITY) by apply H.
  destruct (add_pulse_spec b t p H) as [(F & K1 & K2 & K3 & K4)|(K1 & _)];
    rewrite K1 in E; inversion E; subst b'.
  rewrite L, capacity_val. unfold T. cbn [with_frames b_frames b_time b_capacity b_accum b_pulse].
  repeat split; try (rewrite K2; exact L); try exact K4; lia.
Qed.

Example C01_example : exists b',
  BKBufferAddPulse BKBufferInit 4294967295 (-32768) = Ok b' /\ cell (b_frames b') 4095 = 0 /\
  cell (b_frames b') 4110 = -32768 * -4518.
Proof. eexists. split; [vm_compute; reflexivity|]. vm_compute. auto. Qed.

(** ** C02 *)
Theorem C02_mix_order : forall b l l' b1 b2, buffer_ok b -> Permutation l l' ->
  add_all b l = Ok b1 -> add_all b l' = Ok b2 -> b1 = b2.
Proof. exact mix_order. Qed.

(** Mixing is defined in every order as soon as the absolute amplitudes fit. *)
Theorem C02_mix_defined : forall b l, buffer_ok b ->
  (forall j, 0 <= j < 4129 ->
     Z.abs (cell (b_frames b) j) + pulses_abs (b_pulse b) (local_pulses b l) j <= 2147483647) ->
  exists b', add_all b l = Ok b'.
Proof. intros b l. exact (mix_defined l b). Qed.

Theorem C02_mix_sum : forall b l b', buffer_ok b -> add_all b l = Ok b' ->
  forall j, 0 <= j -> cell (b_frames b') j = cell (b_frames b) j + pulses_at (b_pulse b) (local_pulses b l) j.
Proof. intros b l b' H E. exact (proj2 (proj2 (add_all_spec l b b' H E))). Qed.

Theorem C02_mix_linear : forall b t p q b1 b2,
  buffer_ok b -> is_s16 p -> is_s16 q -> is_s16 (p + q) ->
  add_all b [(t, p); (t, q)] = Ok b1 -> BKBufferAddPulse b t (p + q) = Ok b2 -> b1 = b2.
Proof. exact mix_linear. Qed.

Example C02_example : exists b1,
  add_all BKBufferInit [(3000000, 1000); (3500000, -2000); (77, 5)] = Ok b1 /\
  add_all BKBufferInit [(77, 5); (3500000, -2000); (3000000, 1000)] = Ok b1 /\
  cell (b_frames b1) 18 <> 0.
Proof.
  eexists. split; [vm_compute; reflexivity|]. split; [vm_compute; reflexivity|]. vm_compute. discriminate.
Qed.

(** ** C03 *)
(** Including the undefined outcomes: a split read is the single read. *)
Theorem C03_read_split : forall b n m, buffer_ok b -> 0 <= n -> 0 <= m ->
  (let* r1 := BKBufferRead b n in
   let* r2 := BKBufferRead (fst r1) m in
   Ok (fst r2, snd r1 ++ snd r2)) = BKBufferRead b (n + m).
Proof. exact read_split. Qed.

Theorem C03_reads_any_chunks : forall ns b, buffer_ok b -> Forall (fun n => 0 <= n) ns ->
  reads b ns = BKBufferRead b (zsum ns).
Proof. exact reads_total. Qed.

Definition ex_history : list bop :=
  [BPulse 3000000 1000; BPulse 20000000 (-800); BEnd 41943040; BShift 41943040].

Example C03_example : exists b s b' s',
  bruns BKBufferInit ex_history = Ok (b, s) /\ reads b [3; 0; 17; 8] = Ok (b', s') /\
  Z.of_nat (length s') = 28 /\ nth 19 s' 0 <> 0.
Proof.
  do 4 eexists. split; [vm_compute; reflexivity|]. split; [vm_compute; reflexivity|].
  vm_compute. split; [reflexivity|discriminate].
Qed.

(** ** C04 *)
Theorem C04_saturation : forall b n b' s, buffer_ok b -> 0 <= n -> BKBufferRead b n = Ok (b', s) ->
  exists accs, accs = integrate (b_accum b) (firstn (Z.to_nat (Z.min n (b_capacity b))) (b_frames b)) /\
  length s = length accs /\
  forall i, (i < length s)%nat ->
    let amp := nth i accs 0 / 16384 in let out := nth i s 0 in
    is_s16 out /\ (is_s16 amp -> out = amp) /\
    (amp > 32767 -> 32766 <= out) /\ (amp < -32768 -> out <= -32767).
Proof.
  intros b n b' s H Hn E. destruct (read_samples b n b' s H Hn E) as (S1 & S2 & _).
  replace (BKMin n (b_capacity b)) with (Z.min n (b_capacity b)) in S1
    by (unfold BKMin; destruct (n <? b_capacity b) eqn:?; lia).
  eexists. split; [reflexivity|]. rewrite S1 at 1. rewrite map_length. split; [reflexivity|].
  intros i Hi amp out.
  assert (O : out = saturate (nth i (integrate (b_accum b) (firstn (Z.to_nat (Z.min n (b_capacity b))) (b_frames b))) 0)).
  { unfold out. rewrite S1. change 0 with (saturate 0) at 1. rewrite map_nth. reflexivity. }
  rewrite O. destruct (saturate_facts (nth i (integrate (b_accum b) (firstn (Z.to_nat (Z.min n (b_capacity b))) (b_frames b))) 0))
    as (F1 & F2 & F3 & F4).
  split; [exact F4|]. split; [exact F1|]. split; intros G; [apply F2 in G | apply F3 in G]; lia.
Qed.

(** A loud history where the amplitude exceeds 16 bit by more than a factor of two. *)
Example C04_example : exists b s,
  bruns BKBufferInit [BPulse 0 32767; BPulse 0 20000; BEnd 41943040; BShift 41943040; BRead 32] = Ok (b, s) /\
  nth 20 s 0 = 32766 /\ nth 0 s 0 = 0.
Proof. do 2 eexists. split; [vm_compute; reflexivity|]. vm_compute. auto. Qed.

(** ** C05 *)
(** For histories that never ask for more than the reported size, a read
    delivers exactly what was asked and the size falls by exactly that number. *)
Theorem C05_read_accounting_partial : forall ops b out n b' s,
  reads_within BKBufferInit ops -> bruns BKBufferInit ops = Ok (b, out) ->
  0 <= n <= BKBufferSize b -> BKBufferRead b n = Ok (b', s) ->
  Z.of_nat (length s) = n /\ BKBufferSize b' = BKBufferSize b - n.
Proof.
  intros ops b out n b' s W E Hn R.
  assert (H := bruns_ok ops BKBufferInit (b, out) init_ok E).
  assert (A := bruns_accountable ops BKBufferInit (b, out) init_ok init_accountable W E).
  destruct (read_account b n b' s H A Hn R) as (K1 & K2 & _). auto.
Qed.

(** A read never returns more than requested. *)
Theorem C05_read_at_most : forall b n b' s, buffer_ok b -> 0 <= n -> BKBufferRead b n = Ok (b', s) ->
  Z.of_nat (length s) <= n.
Proof.
  intros b n b' s H Hn E. destruct (read_samples b n b' s H Hn E) as (_ & L & _).
  rewrite L. unfold BKMin. destruct (n <? b_capacity b) eqn:?; lia.
Qed.

(** Without that restriction the claim is false: after a mixed range that was
    ended but not yet shifted, a read wraps the time below zero and the buffer
    reports 4091 frames. *)
Theorem C05_read_accounting_refuted : exists ops b out n b' s,
  bruns BKBufferInit ops = Ok (b, out) /\ BKBufferRead b n = Ok (b', s) /\
  BKBufferSize b' <> BKBufferSize b - Z.of_nat (length s).
Proof.
  exists [BEnd 10485760]. do 2 eexists. exists 5. do 2 eexists.
  split; [vm_compute; reflexivity|]. split; [vm_compute; reflexivity|]. vm_compute. discriminate.
Qed.

Example C05_example : reads_within BKBufferInit ex_history /\
  exists b out, bruns BKBufferInit ex_history = Ok (b, out) /\ BKBufferSize b = 40.
Proof.
  split; [vm_compute; tauto|]. do 2 eexists. split; [vm_compute; reflexivity|]. vm_compute. reflexivity.
Qed.

(** ** C06 *)
Theorem C06_kernel_gain : forall K row, K = BKBufferStepPhasesSinc \/ K = BKBufferStepPhasesHarm ->
  In row K -> zsum row = 32767.
Proof.
  intros K row [->| ->] Hin; apply Z.eqb_eq; revert row Hin; apply forallb_forall; vm_compute; reflexivity.
Qed.

(** The sum of all frames rises by 32767 times the height wherever the pulse falls. *)
Theorem C06_pulse_gain : forall b t p b', buffer_ok b ->
  (b_pulse b = BKBufferStepPhasesSinc \/ b_pulse b = BKBufferStepPhasesHarm) ->
  BKBufferAddPulse b t p = Ok b' ->
  zsum (b_frames b') = zsum (b_frames b) + 32767 * s16 p.
Proof.
  intros b t p b' H K. apply add_pulse_gain; [exact H|]. intros row Hin. exact (C06_kernel_gain _ row K Hin).
Qed.

Example C06_example : exists b', BKBufferAddPulse BKBufferInit 123456789 1000 = Ok b' /\
  zsum (b_frames b') = 32767000.
Proof. eexists. split; [vm_compute; reflexivity|]. vm_compute. reflexivity. Qed.

(** ** C67 *)
(** Whatever the history of mixing and reading, the audio is the filtered sum
    of all pulses at their absolute times - proved for mixed ranges of whole
    frames. *)
Theorem C67_stream_partial : forall K rs b' s, kernel_ok K -> rounds_ok 0 0 rs -> whole_frames rs ->
  rounds_run (mk_buffer 0 0 0 (repeat 0 BK_BUFFER_CAPACITY) K) (raw_rounds rs) = Ok (b', s) ->
  s = stream_spec K rs.
Proof. exact stream_history. Qed.

Definition ex_rounds : list round :=
  [ mk_round [(0, 9000); (1500000, -9000)] 10485760 4;
    mk_round [(100, 7000); (10485760, -7000)] 10485760 0;
    mk_round [(5, 7)] 104857600 100 ].

Example C67_example : rounds_ok 0 0 ex_rounds /\ whole_frames ex_rounds /\
  exists b' s, rounds_run BKBufferInit (raw_rounds ex_rounds) = Ok (b', s) /\
  Z.of_nat (length s) = 104 /\ nth 40 s 0 <> 0.
Proof.
  split.
  { unfold ex_rounds; cbn [rounds_ok r_end r_pulses r_read]. repeat split; try lia;
    cbn [In] in *; intuition (try congruence);
    repeat match goal with H : (_, _) = (_, _) |- _ => inversion H; clear H end; subst; unfold is_s16; lia. }
  split. { unfold whole_frames, ex_rounds. repeat constructor. }
  do 2 eexists. split; [vm_compute; reflexivity|]. vm_compute. split; [reflexivity|discriminate].
Qed.

(** For mixed ranges with a fraction of a frame it is false: [BKBufferShift]
    drops the fraction, so everything mixed later comes too early. *)
Definition frac_rounds : list round :=
  [ mk_round [] 10485760 0; mk_round [] 524288 0; mk_round [] 524288 0; mk_round [(0, 9000)] 52428800 50 ].

Theorem C67_stream_refuted : exists rs b' s, rounds_ok 0 0 rs /\
  rounds_run BKBufferInit (raw_rounds rs) = Ok (b', s) /\
  s <> stream_spec BKBufferStepPhasesHarm rs.
Proof.
  exists frac_rounds. do 2 eexists. split.
  { unfold frac_rounds; cbn [rounds_ok r_end r_pulses r_read]. repeat split; try lia;
    cbn [In] in *; intuition (try congruence);
    repeat match goal with H : (_, _) = (_, _) |- _ => inversion H; clear H end; subst; unfold is_s16; lia. }
  split; [vm_compute; reflexivity|].
  intros E. apply (f_equal (fun l => nth 25 l 0)) in E. vm_compute in E. discriminate.
Qed.

Print Assumptions C01_no_out_of_bounds.
Print Assumptions C01_reachable_ok.
Print Assumptions C01_pulse_in_bounds.
Print Assumptions C02_mix_order.
Print Assumptions C02_mix_defined.
Print Assumptions C02_mix_sum.
Print Assumptions C02_mix_linear.
Print Assumptions C03_read_split.
Print Assumptions C03_reads_any_chunks.
Print Assumptions C04_saturation.
Print Assumptions C05_read_accounting_partial.
Print Assumptions C05_read_at_most.
Print Assumptions C05_read_accounting_refuted.
Print Assumptions C06_kernel_gain.
Print Assumptions C06_pulse_gain.
Print Assumptions C67_stream_partial.
Print Assumptions C67_stream_refuted.
