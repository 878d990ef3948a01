(** Properties of WAVE files: C55-C62, C85-C88. *)
From Verif Require Import CInt CIntFacts WaveModel WaveSpec WaveProofs WaveReaderProofs.
Ltac Zify.zify_post_hook ::= idtac.

(** The frames a reader delivers: header, then the frames into an array of the announced
    size whose contents is [x] everywhere. *)
Definition reads (n : nat) (big : bool) (bytes : list Z) (pos x : Z) : res (Z * (Z * Z * Z) * list Z) :=
  let* (r, ret, fmt) := BKWaveFileReaderReadHeader n big (opened bytes pos) in
  if negb (ret =? 0) then Ok (ret, fmt, []) else
  let '(ch, rate, frames) := fmt in
  let* (r, out) := BKWaveFileReaderReadFrames n big r (repeat x (Z.to_nat (ch * frames))) in
  Ok (ret, fmt, out).

(** What a client writes: initialise, calls, dispose. *)
Definition writes (big : bool) (f : file) (ch rate bits : Z) (ops : list wop) : res file :=
  match BKWaveFileWriterInit big f ch rate bits with
  | (0, Some w) => let* w := wruns big w ops in BKWaveFileWriterDispose big w
  | _ => Err ENull
  end.

(** A new file, opened for reading and writing. *)
Definition new_file : file := mk_file [] 0 2 false true.

Lemma computed {A} (r : res A) (Q : A -> Prop) : match r with Ok a => Q a | Err _ => False end -> exists a, r = Ok a /\ Q a.
Proof. destruct r as [a|]; [eauto|intros []]. Qed.

(** ** The bytes which are written *)

Lemma init_started f ch rate bits : writable f -> format_ok ch rate bits ->
  exists w, BKWaveFileWriterInit false f ch rate bits = (0, Some w) /\ started (f_bytes f) (f_mode f) ch rate bits w.
Proof.
  intros (M & S & A & P) (_ & _ & _ & _ & B). unfold BKWaveFileWriterInit, check_writable. rewrite S. cbn [negb].
  destruct f as [b p m ap s]. cbn [f_bytes f_pos f_mode f_append f_seekable fsize] in *. unfold fsize in P. cbn [f_bytes] in P. subst ap s p.
  eexists. split; [|reflexivity]. destruct M as [-> | ->]; destruct B as [-> | ->]; reflexivity.
Qed.

Lemma written f ch rate bits ops : writable f -> format_ok ch rate bits -> history_ok bits ops ->
  let n := Z.of_nat (length (encode bits (appended ops))) in
  exists f', writes false f ch rate bits ops = Ok f' /\
    f_bytes f' = f_bytes f ++ wav_header ch rate bits (f_pos f + 36 + n) n ++ encode bits (appended ops).
Proof.
  intros W OK H. cbv zeta. destruct (init_started f ch rate bits W OK) as (w & E & S).
  destruct (history_dispose _ _ _ _ _ _ _ OK S H) as (w' & f' & E1 & E2 & F). unfold writes. rewrite E, E1. cbn [bind]. exists f'.
  split; [exact E2|]. rewrite F. cbv zeta. cbn [f_bytes sizes fst snd]. rewrite header_u32.
  destruct W as (_ & _ & _ & P). rewrite P. reflexivity.
Qed.

(** ** Reading bytes of this form *)

Lemma frames_count ch bits fs : 1 <= ch -> bits = 8 \/ bits = 16 -> let D := Z.of_nat (length (encode bits fs)) in D < 2147483648 ->
  s32 (Z.quot (Z.quot (s32 D) ch) (bits / 8)) = Z.of_nat (length fs) / ch.
Proof.
  intros C B. cbv zeta. intros L. rewrite encode_length in * by exact B.
  assert (Q : 1 <= bits / 8 <= 2) by (destruct B as [-> | ->]; split; discriminate). set (k := bits / 8) in *. set (N := Z.of_nat (length fs)) in *.
  assert (N0 : 0 <= N) by lia.
  rewrite (s32_id (k * N)) by nia. rewrite (Z.quot_div_nonneg (k * N) ch) by nia.
  assert (P : 0 <= k * N / ch) by (apply Z.div_pos; nia). rewrite Z.quot_div_nonneg by nia.
  assert (E : k * N / ch / k = N / ch).
  { rewrite Z.div_div, (Z.mul_comm ch k) by lia. apply Z.div_mul_cancel_l; lia. }
  rewrite E. apply s32_id. assert (0 <= N / ch <= N). { split; [apply Z.div_pos; lia|]. apply Z.div_le_upper_bound; nia. } nia.
Qed.

(** A file with [fs], of which the data chunk announces [D] bytes. *)
Lemma reads_bytes n pre ch rate bits riff D fs rest x : (length (pre ++ wav_header ch rate bits riff D ++ encode bits fs ++ rest) < n)%nat ->
  1 <= ch <= 65535 -> 0 < rate <= 2147483647 -> bits = 8 \/ bits = 16 -> Forall frame_ok fs ->
  D = Z.of_nat (length (encode bits fs)) /\ D <> 0 \/ D = 0 /\ rest = [] ->
  Z.of_nat (length (encode bits fs)) < 2147483648 -> Z.of_nat (length fs) mod ch = 0 ->
  reads n false (pre ++ wav_header ch rate bits riff D ++ encode bits fs ++ rest) (Z.of_nat (length pre)) x =
  Ok (0, (ch, rate, Z.of_nat (length fs) / ch), map (quantised bits) fs).
Proof.
  intros N C R B F DD L M. unfold reads, opened, BKWaveFileReaderReadHeader. cbn [rd_rate]. change (0 =? 0) with true. cbn iota.
  set (bytes := pre ++ wav_header ch rate bits riff D ++ encode bits fs ++ rest) in *.
  pose proof (read_header_chunks n pre ch rate bits riff D [] (encode bits fs ++ rest) 0 false true C R B) as RH.
  specialize (RH ltac:(lia) (Forall_nil _) (Forall_nil _) ltac:(cbn [length]; lia) bytes eq_refl). cbv zeta in RH.
  assert (DB : data_bytes D (encode bits fs ++ rest) = Z.of_nat (length (encode bits fs))).
  { unfold data_bytes. destruct DD as [[-> NZ]|[-> ->]].
    - destruct (Z.of_nat (length (encode bits fs)) =? 0) eqn:E; [lia|reflexivity].
    - rewrite app_nil_r. reflexivity. }
  rewrite DB, <- header_chunks, header_length, frames_count in RH by (assumption || lia).
  rewrite RH. cbn [bind]. change (0 =? 0) with true. cbn [rd_channels rd_rate rd_frames negb]. cbn iota.
  assert (CN : ch * (Z.of_nat (length fs) / ch) = Z.of_nat (length fs)) by (apply Z_div_exact_full_2 in M; lia).
  rewrite CN, Nat2Z.id.
  assert (WB : width bits = bits / 8) by (destruct B as [-> | ->]; reflexivity).
  destruct (read_frames_spec n bytes (Z.of_nat (length pre + 44)) 0 false true rate ch bits (Z.of_nat (length fs) / ch) (Z.of_nat (length (encode bits fs))) (repeat x (length fs))) as (r' & tail & E & L1 & L2 & _).
  - lia.
  - split; [lia|]. unfold bytes in N. rewrite !app_length in N. lia.
  - rewrite repeat_length, WB, encode_length by exact B. lia.
  - cbv zeta in E. rewrite Nat2Z.id in E, L1, L2.
    assert (AV : skipn (length pre + 44) bytes = encode bits fs ++ rest).
    { unfold bytes. rewrite app_assoc, <- (header_length ch rate bits riff D), <- app_length. apply skipn_exact. }
    rewrite AV in E, L1, L2.
    assert (FM : fit bits (Z.min (Z.of_nat (length (encode bits fs))) (Z.of_nat (length (encode bits fs ++ rest)))) = Z.of_nat (length (encode bits fs))).
    { rewrite Z.min_l by (rewrite app_length; lia). apply fit_id. rewrite encode_length, WB by exact B. rewrite Z.mul_comm. apply Z.mod_mul. destruct B as [-> | ->]; discriminate. }
    rewrite FM in E, L1, L2. rewrite Nat2Z.id, firstn_exact in E, L1, L2. rewrite (decode_encode bits fs B F) in E, L1.
    rewrite E. cbn [bind]. rewrite app_length, map_length, repeat_length in L1.
    destruct tail; [|cbn [length] in L1; lia]. rewrite app_nil_r. reflexivity.
Qed.

Lemma format_bounds ch rate bits : format_ok ch rate bits -> 1 <= ch <= 65535 /\ 0 < rate <= 2147483647 /\ (bits = 8 \/ bits = 16).
Proof.
  intros (C & CB & R & RB & B). split; [|split; [|exact B]].
  - destruct B as [-> | ->]; [change (8 / 8) with 1 in CB|change (16 / 8) with 2 in CB]; lia.
  - destruct B as [-> | ->]; nia.
Qed.

Lemma appended_ok bits ops : Forall (append_ok bits) ops -> Forall frame_ok (appended ops).
Proof. induction 1 as [|o ops O _ IH]; [constructor|]. destruct o; cbn [appended]; [apply Forall_app; split; [exact (proj1 O)|exact IH]|exact IH]. Qed.

Lemma round_trip f ch rate bits ops x : writable f -> format_ok ch rate bits -> history_ok bits ops ->
  let fs := appended ops in
  bits / 8 * Z.of_nat (length fs) < 2147483648 -> Z.of_nat (length fs) mod ch = 0 ->
  exists f', writes false f ch rate bits ops = Ok f' /\
    forall n, (length (f_bytes f') < n)%nat ->
      reads n false (f_bytes f') (f_pos f) x = Ok (0, (ch, rate, Z.of_nat (length fs) / ch), map (quantised bits) fs).
Proof.
  intros W OK H. cbv zeta. intros L M. destruct (written f ch rate bits ops W OK H) as (f' & E & B). exists f'. split; [exact E|].
  destruct (format_bounds _ _ _ OK) as (C & R & BB). destruct W as (_ & _ & _ & P). unfold fsize in P. intros n N. rewrite B in *. rewrite P.
  set (fs := appended ops) in *. set (D := Z.of_nat (length (encode bits fs))) in *. rewrite P in N.
  pose proof (reads_bytes n (f_bytes f) ch rate bits (Z.of_nat (length (f_bytes f)) + 36 + D) D fs [] x) as RB. rewrite app_nil_r in RB.
  apply RB; [exact N|exact C|exact R|exact BB|exact (appended_ok bits ops (proj1 H))| | |exact M].
  - destruct (Z.eq_dec D 0) as [Z0|Z0]; [right; split; [exact Z0|reflexivity]|left; split; [reflexivity|exact Z0]].
  - rewrite encode_length by exact BB. exact L.
Qed.

(** * C55: files with 16 bits *)

(** Frames appended in any pieces, also after terminating the file in between, are read back
    with their format.  The file is positioned at its end before writing, the header fields
    and the number of bytes fit into 32 bits and the last frame is complete. *)
Theorem C55_round_trip_partial f ch rate ops x : writable f -> format_ok ch rate 16 -> history_ok 16 ops ->
  let fs := appended ops in
  2 * Z.of_nat (length fs) < 2147483648 -> Z.of_nat (length fs) mod ch = 0 ->
  exists f', writes false f ch rate 16 ops = Ok f' /\
    forall n, (length (f_bytes f') < n)%nat ->
      reads n false (f_bytes f') (f_pos f) x = Ok (0, (ch, rate, Z.of_nat (length fs) / ch), fs).
Proof.
  intros W OK H. cbv zeta. intros L M. destruct (round_trip f ch rate 16 ops x W OK H L M) as (f' & E & R). exists f'. split; [exact E|].
  intros n N. rewrite (R n N). f_equal. f_equal. unfold quantised. change (16 =? 8) with false. cbn iota. apply map_id.
Qed.

Definition stereo_ops : list wop := [WAppend [1; -2]; WAppend []; WTerminate; WAppend [32767; -32768; 300; -300]].
Example C55_example : writable new_file /\ format_ok 2 44100 16 /\ history_ok 16 stereo_ops /\
  reads 99 false (match writes false new_file 2 44100 16 stereo_ops with Ok f => f_bytes f | _ => [] end) 0 7 =
  Ok (0, (2, 44100, 3), [1; -2; 32767; -32768; 300; -300]).
Proof.
  split; [split; [right; reflexivity|repeat split]|]. split; [unfold format_ok; change (16 / 8) with 2; lia|]. split.
  - split; [|exact I]. repeat constructor; unfold frame_ok; try lia; cbn; discriminate.
  - vm_compute. reflexivity.
Qed.

(** On systems with big endian order the files are not readable: the field [audioFormat] is
    written in the order of the system. *)
Theorem C55_big_endian_refuted : exists f ch rate fs f', writable f /\ format_ok ch rate 16 /\ history_ok 16 [WAppend fs] /\
  writes true f ch rate 16 [WAppend fs] = Ok f' /\ reads 99 true (f_bytes f') (f_pos f) 0 = Ok (-1, (0, 0, 0), []).
Proof.
  destruct (computed (writes true new_file 1 44100 16 [WAppend [1; 2; 3]]) (fun f => reads 99 true (f_bytes f) 0 0 = Ok (-1, (0, 0, 0), []))) as (f' & E & R); [vm_compute; reflexivity|].
  exists new_file, 1, 44100, [1; 2; 3], f'. split; [split; [right; reflexivity|repeat split]|]. split; [unfold format_ok; change (16 / 8) with 2; lia|].
  split; [split; [|exact I]; repeat constructor; unfold frame_ok; try lia; cbn; discriminate|].
  split; [exact E|exact R].
Qed.

(** Files opened for appending are accepted, but the sizes are appended to them too and are read as frames. *)
Theorem C55_append_mode_refuted : exists f ch rate fs f', f_mode f = 1 /\ f_seekable f = true /\ f_append f = true /\ f_pos f = fsize f /\
  format_ok ch rate 16 /\ history_ok 16 [WAppend fs] /\
  writes false f ch rate 16 [WAppend fs] = Ok f' /\ reads 99 false (f_bytes f') (f_pos f) 0 = Ok (0, (ch, rate, 7), fs ++ [42; 0; 6; 0]).
Proof.
  destruct (computed (writes false (mk_file [] 0 1 true true) 1 44100 16 [WAppend [1; 2; 3]]) (fun f => reads 99 false (f_bytes f) 0 0 = Ok (0, (1, 44100, 7), [1; 2; 3] ++ [42; 0; 6; 0]))) as (f' & E & R); [vm_compute; reflexivity|].
  exists (mk_file [] 0 1 true true), 1, 44100, [1; 2; 3], f'. do 4 (split; [reflexivity|]). split; [unfold format_ok; change (16 / 8) with 2; lia|].
  split; [split; [|exact I]; repeat constructor; unfold frame_ok; try lia; cbn; discriminate|].
  split; [exact E|exact R].
Qed.

(** In a file which already has bytes after the position frames appended after terminating get lost. *)
Theorem C55_overwrite_refuted : exists f ch rate ops f', f_mode f = 2 /\ f_seekable f = true /\ f_append f = false /\ f_pos f = 0 /\
  format_ok ch rate 16 /\ history_ok 16 ops /\ appended ops = [1; 2] /\
  writes false f ch rate 16 ops = Ok f' /\ reads 99 false (f_bytes f') (f_pos f) 0 = Ok (0, (ch, rate, 2), [1; 9]).
Proof.
  destruct (computed (writes false (mk_file (repeat 0 46 ++ [9; 0; 9; 0]) 0 2 false true) 1 44100 16 [WAppend [1]; WTerminate; WAppend [2]])
    (fun f => reads 99 false (f_bytes f) 0 0 = Ok (0, (1, 44100, 2), [1; 9]))) as (f' & E & R); [vm_compute; reflexivity|].
  exists (mk_file (repeat 0 46 ++ [9; 0; 9; 0]) 0 2 false true), 1, 44100, [WAppend [1]; WTerminate; WAppend [2]], f'.
  do 4 (split; [reflexivity|]). split; [unfold format_ok; change (16 / 8) with 2; lia|].
  split; [split; [|exact I]; repeat constructor; unfold frame_ok; try lia; cbn; discriminate|].
  split; [reflexivity|]. split; [exact E|exact R].
Qed.

(** * C56: files with 8 bits *)

Theorem C56_quantised_partial f ch rate ops x : writable f -> format_ok ch rate 8 -> history_ok 8 ops ->
  let fs := appended ops in
  Z.of_nat (length fs) < 2147483648 -> Z.of_nat (length fs) mod ch = 0 ->
  exists f', writes false f ch rate 8 ops = Ok f' /\
    forall n, (length (f_bytes f') < n)%nat ->
      reads n false (f_bytes f') (f_pos f) x = Ok (0, (ch, rate, Z.of_nat (length fs) / ch), map (fun v => v - v mod 256) fs).
Proof.
  intros W OK H. cbv zeta. intros L M. destruct (round_trip f ch rate 8 ops x W OK H) as (f' & E & R); [change (8 / 8) with 1; lia|exact M|].
  exists f'. split; [exact E|]. intros n N. rewrite (R n N). reflexivity.
Qed.

Example C56_example : format_ok 2 44100 8 /\ history_ok 8 stereo_ops /\
  reads 99 false (match writes false new_file 2 44100 8 stereo_ops with Ok f => f_bytes f | _ => [] end) 0 7 =
  Ok (0, (2, 44100, 3), [0; -256; 32512; -32768; 256; -512]).
Proof.
  split; [unfold format_ok; change (8 / 8) with 1; lia|]. split.
  - split; [|exact I]. repeat constructor; unfold frame_ok; try lia; cbn; discriminate.
  - vm_compute. reflexivity.
Qed.

(** The findings of C55 hold for 8 bits, too: sizes appended to the file are read as frames, and on
    big endian systems the file is rejected. *)
Theorem C56_append_mode_refuted : exists f ch rate fs f', f_mode f = 1 /\ f_seekable f = true /\ f_append f = true /\ f_pos f = fsize f /\
  format_ok ch rate 8 /\ history_ok 8 [WAppend fs] /\
  writes false f ch rate 8 [WAppend fs] = Ok f' /\ reads 99 false (f_bytes f') (f_pos f) 0 = Ok (0, (ch, rate, 11), fs ++ [-22784; -32768; -32768; -32768; -32000; -32768; -32768; -32768]).
Proof.
  destruct (computed (writes false (mk_file [] 0 1 true true) 1 44100 8 [WAppend [256; 512; 768]]) (fun f => reads 99 false (f_bytes f) 0 0 = Ok (0, (1, 44100, 11), [256; 512; 768] ++ [-22784; -32768; -32768; -32768; -32000; -32768; -32768; -32768]))) as (f' & E & R); [vm_compute; reflexivity|].
  exists (mk_file [] 0 1 true true), 1, 44100, [256; 512; 768], f'. do 4 (split; [reflexivity|]). split; [unfold format_ok; change (8 / 8) with 1; lia|].
  split; [split; [|exact I]; repeat constructor; unfold frame_ok; try lia; cbn; discriminate|].
  split; [exact E|exact R].
Qed.
Theorem C56_big_endian_refuted : exists f ch rate fs f', writable f /\ format_ok ch rate 8 /\ history_ok 8 [WAppend fs] /\
  writes true f ch rate 8 [WAppend fs] = Ok f' /\ reads 99 true (f_bytes f') (f_pos f) 0 = Ok (-1, (0, 0, 0), []).
Proof.
  destruct (computed (writes true new_file 1 44100 8 [WAppend [256; 512; 768]]) (fun f => reads 99 true (f_bytes f) 0 0 = Ok (-1, (0, 0, 0), []))) as (f' & E & R); [vm_compute; reflexivity|].
  exists new_file, 1, 44100, [256; 512; 768], f'. split; [split; [right; reflexivity|repeat split]|]. split; [unfold format_ok; change (8 / 8) with 1; lia|].
  split; [split; [|exact I]; repeat constructor; unfold frame_ok; try lia; cbn; discriminate|].
  split; [exact E|exact R].
Qed.

(** * C57: writing data objects *)

(** Number of channels and sample rate are exchanged, always. *)
Theorem C57_exchanged f ch fs rate bits x : writable f -> format_ok rate ch bits -> Forall frame_ok fs ->
  bits / 8 * Z.of_nat (length fs) < 2147483648 -> Z.of_nat (length fs) mod rate = 0 ->
  exists f', BKWaveFileWriteData false f ch fs rate bits = Ok (0, f') /\
    forall n, (length (f_bytes f') < n)%nat ->
      reads n false (f_bytes f') (f_pos f) x = Ok (0, (rate, ch, Z.of_nat (length fs) / rate), map (quantised bits) fs).
Proof.
  intros W OK F L M.
  assert (H : history_ok bits [WAppend fs; WTerminate]).
  { split; [|exact I]. constructor; [split; [exact F|lia]|]. repeat constructor. }
  assert (A : appended [WAppend fs; WTerminate] = fs) by (cbn [appended]; apply app_nil_r).
  destruct (round_trip f rate ch bits [WAppend fs; WTerminate] x W OK H) as (f' & E & R); cbv zeta in *; rewrite A in *; [exact L|exact M|].
  exists f'. split; [|exact R]. unfold writes in E. unfold BKWaveFileWriteData. destruct (init_started f rate ch bits W OK) as (w & I & _). rewrite I in *.
  cbn [wruns wstep] in E. destruct (BKWaveFileWriterAppendFrames false w fs) as [w1|]; [|discriminate]. cbn [bind] in *.
  destruct (BKWaveFileWriterTerminate false w1) as [w2|]; [|discriminate]. cbn [bind] in *. rewrite E. reflexivity.
Qed.

Theorem C57_format_refuted : exists f ch fs rate f' r, writable f /\ format_ok ch rate 16 /\ Forall frame_ok fs /\
  BKWaveFileWriteData false f ch fs rate 16 = Ok (0, f') /\
  BKWaveFileReaderReadHeader 99 false (opened (f_bytes f') (f_pos f)) = Ok (r, 0, (rate, ch, 0)) /\ rate <> ch /\ fs <> [].
Proof.
  destruct (computed (BKWaveFileWriteData false new_file 2 [1; 2; 3; 4] 44100 16)
    (fun p => fst p = 0 /\ exists r, BKWaveFileReaderReadHeader 99 false (opened (f_bytes (snd p)) 0) = Ok (r, 0, (44100, 2, 0)))) as ([z f'] & E & R & r & H).
  { vm_compute. split; [reflexivity|eexists; reflexivity]. }
  cbn [fst snd] in *. subst z.
  exists new_file, 2, [1; 2; 3; 4], 44100, f', r. split; [split; [right; reflexivity|repeat split]|]. split; [unfold format_ok; change (16 / 8) with 2; lia|].
  split; [repeat constructor; unfold frame_ok; lia|]. split; [exact E|]. split; [exact H|]. split; discriminate.
Qed.

Example C57_example : format_ok 4 2 16 /\
  reads 99 false (match BKWaveFileWriteData false new_file 2 [1; 2; 3; 4] 4 16 with Ok (_, f) => f_bytes f | _ => [] end) 0 7 = Ok (0, (4, 2, 1), [1; 2; 3; 4]).
Proof. split; [unfold format_ok; change (16 / 8) with 2; lia|]. vm_compute. reflexivity. Qed.

(** * C58: the size of the RIFF chunk *)

(** The field is the number of bytes behind it plus the position at which the file starts. *)
Theorem C58_size_field f ch rate bits ops : writable f -> format_ok ch rate bits -> history_ok bits ops ->
  exists f', writes false f ch rate bits ops = Ok f' /\
    let riff := skipn (Z.to_nat (f_pos f)) (f_bytes f') in
    firstn (Z.to_nat (f_pos f)) (f_bytes f') = f_bytes f /\ (44 <= length riff)%nat /\
    le_val (field 4 4 riff) = (Z.of_nat (length riff) - 8 + f_pos f) mod 4294967296 /\
    le_val (field 40 4 riff) = (Z.of_nat (length riff) - 44) mod 4294967296.
Proof.
  intros W OK H. destruct (written f ch rate bits ops W OK H) as (f' & E & B). exists f'. split; [exact E|]. cbv zeta. rewrite B.
  destruct W as (_ & _ & _ & P). unfold fsize in P. rewrite P, Nat2Z.id, skipn_exact, firstn_exact. split; [reflexivity|].
  set (D := Z.of_nat (length (encode bits (appended ops)))). set (R := Z.of_nat (length (f_bytes f)) + 36 + D).
  rewrite app_length, header_length. split; [lia|].
  change (field 4 4 (wav_header ch rate bits R D ++ encode bits (appended ops))) with (le32 R).
  change (field 40 4 (wav_header ch rate bits R D ++ encode bits (appended ops))) with (le32 D).
  rewrite !le_val32. unfold u32. split; f_equal; unfold R, D; lia.
Qed.

(** So it is right for files which start at position 0. *)
Theorem C58_riff_size_partial f ch rate bits ops : writable f -> f_pos f = 0 -> format_ok ch rate bits -> history_ok bits ops ->
  exists f', writes false f ch rate bits ops = Ok f' /\
    (fsize f' < 4294967296 -> le_val (field 4 4 (f_bytes f')) = fsize f' - 8 /\ le_val (field 40 4 (f_bytes f')) = fsize f' - 44).
Proof.
  intros W P OK H. destruct (C58_size_field f ch rate bits ops W OK H) as (f' & E & X). exists f'. split; [exact E|]. cbv zeta in X. rewrite P in X.
  change (Z.to_nat 0) with 0%nat in X. cbn [skipn] in X. destruct X as (_ & L & A & B). intros S. unfold fsize in *. rewrite A, B. split; rewrite Z.mod_small; lia.
Qed.

Example C58_example : exists f', writes false new_file 2 44100 16 stereo_ops = Ok f' /\ fsize f' = 56 /\ le_val (field 4 4 (f_bytes f')) = 48.
Proof. apply (computed _ (fun f => fsize f = 56 /\ le_val (field 4 4 (f_bytes f)) = 48)). vm_compute. split; reflexivity. Qed.

(** It is wrong for files which start at another position. *)
Theorem C58_riff_size_refuted : exists f ch rate bits ops f', writable f /\ format_ok ch rate bits /\ history_ok bits ops /\
  writes false f ch rate bits ops = Ok f' /\ f_pos f = 4 /\ fsize f' = 50 /\ le_val (field 8 4 (f_bytes f')) = 42 /\ 42 <> 50 - 4 - 8.
Proof.
  set (f := mk_file [1; 2; 3; 4] 4 2 false true).
  destruct (computed (writes false f 1 44100 16 [WAppend [5]]) (fun f => fsize f = 50 /\ le_val (field 8 4 (f_bytes f)) = 42)) as (f' & E & A & B); [vm_compute; split; reflexivity|].
  exists f, 1, 44100, 16, [WAppend [5]], f'. split; [split; [right; reflexivity|repeat split]|]. split; [unfold format_ok; change (16 / 8) with 2; lia|].
  split; [split; [|exact I]; repeat constructor; unfold frame_ok; try lia; cbn; discriminate|].
  split; [exact E|]. split; [reflexivity|]. split; [exact A|]. split; [exact B|discriminate].
Qed.

(** * C59: reading frames *)

(** Whatever the file contains: if the data chunk has less than 2^31 bytes and consists of
    whole frames of all channels, reading stores exactly the announced number of frames:
    those of the file and, with 16 bits, silence for what is missing. *)
Theorem C59_read_frames_partial n bytes pos r ret ch rate frames out : Forall byte_ok bytes -> 0 <= pos -> Z.of_nat (length bytes) < Z.of_nat n ->
  BKWaveFileReaderReadHeader n false (opened bytes pos) = Ok (r, ret, (ch, rate, frames)) -> ret = 0 ->
  rd_dataSize r < 2147483648 -> rd_dataSize r < Z.of_nat n -> rd_dataSize r mod (ch * (rd_bits r / 8)) = 0 -> Z.of_nat (length out) = ch * frames ->
  let data := skipn (Z.to_nat (f_pos (rd_file r))) bytes in
  let got := Z.min (Z.of_nat (length out)) (Z.of_nat (length data) / (rd_bits r / 8)) in
  exists r' out', BKWaveFileReaderReadFrames n false r out = Ok (r', out') /\ length out' = length out /\
    firstn (Z.to_nat got) out' = decode (rd_bits r) (firstn (Z.to_nat (got * (rd_bits r / 8))) data) /\
    (rd_bits r = 16 -> skipn (Z.to_nat got) out' = repeat 0 (length out - Z.to_nat got)).
Proof.
  intros F P N E R0 D31 DN DM LO. subst ret. unfold BKWaveFileReaderReadHeader in E. cbn [opened rd_rate] in E. change (0 =? 0) with true in E. cbn iota in E. unfold opened in E.
  destruct (read_header_total n bytes pos 0 false true F P N) as [(f & X)|[(_ & _ & _ & X)|(_ & B & C & pos' & d & PP & D0 & X)]]; rewrite X in E; cbn [bind] in E.
  - change (-1 =? 0) with false in E. discriminate.
  - discriminate.
  - change (0 =? 0) with true in E. cbn iota in E. cbn [rd_channels rd_rate rd_frames] in E. clear X.
    set (b := skipn (Z.to_nat pos) bytes) in *. set (bits := le_val (field 34 2 b)) in *. set (c := le_val (field 22 2 b)) in *.
    assert (EE : r = mk_reader (mk_file bytes pos' 0 false true) (s32 (le_val (field 24 4 b))) c bits (s32 (Z.quot (Z.quot (s32 d) c) (width bits))) d /\ ch = c /\ frames = s32 (Z.quot (Z.quot (s32 d) c) (width bits))) by (split; [|split]; congruence).
    clear E. destruct EE as (-> & -> & ->). cbn [rd_dataSize rd_bits rd_file f_pos] in *.
    set (k := bits / 8) in *. assert (W : width bits = k /\ 1 <= k <= 2) by (unfold k; destruct B as [-> | ->]; split; [reflexivity|split; discriminate|reflexivity|split; discriminate]).
    destruct W as [W K]. rewrite W in *.
    set (q := d / (c * k)). assert (DQ : d = c * k * q) by (unfold q; rewrite (Z.div_mod d (c * k)) at 1 by nia; lia).
    assert (Q0 : 0 <= q) by (unfold q; apply Z.div_pos; nia).
    assert (FR : s32 (Z.quot (Z.quot (s32 d) c) k) = q).
    { rewrite (s32_id d) by lia. rewrite DQ. replace (c * k * q) with (k * q * c) by ring. rewrite Z.quot_mul by lia. rewrite Z.mul_comm, Z.quot_mul by lia. apply s32_id. nia. }
    rewrite FR in *. assert (DL : d = k * Z.of_nat (length out)) by (rewrite LO, DQ; ring). clear FR DM.
    destruct (read_frames_spec n bytes pos' 0 false true (s32 (le_val (field 24 4 b))) c bits q d out) as (r' & tail & E & L1 & L2 & L3 & L4); [lia|lia|rewrite W; lia|].
    cbv zeta in *. set (data := skipn (Z.to_nat pos') bytes) in *. set (m := fit bits (Z.min d (Z.of_nat (length data)))) in *.
    set (g := decode bits (firstn (Z.to_nat m) data)) in *. rewrite W in L2.
    assert (GL : Z.min (Z.of_nat (length out)) (Z.of_nat (length data) / k) = Z.of_nat (length g)).
    { assert (M : m = k * Z.min (Z.of_nat (length out)) (Z.of_nat (length data) / k)).
      { unfold m, fit. rewrite W. rewrite DL. assert (k = 1 \/ k = 2) as [KK|KK] by lia; rewrite KK; Z.to_euclidean_division_equations; lia. }
      nia. }
    rewrite GL, Nat2Z.id. exists r', (g ++ tail). split; [exact E|]. split; [exact L1|]. split.
    + rewrite firstn_exact. unfold g at 1. f_equal. f_equal. rewrite <- L2. f_equal. apply Z.mul_comm.
    + intros B16. rewrite skipn_exact. assert (K2 : k = 2) by (unfold k; rewrite B16; reflexivity). rewrite app_length in L1.
      assert (T : Z.to_nat ((d - m) / 2) = length tail) by (rewrite DL, <- L2, K2; replace (2 * Z.of_nat (length out) - 2 * Z.of_nat (length g)) with (Z.of_nat (length tail) * 2) by lia; rewrite Z.div_mul by lia; lia).
      rewrite T in L3. rewrite firstn_all in L3. rewrite L3. f_equal. lia.
Qed.

(** Reading never stores frames outside of an array which holds every frame of the data chunk, rounded up. *)
Theorem C59_read_frames_safe n bytes pos mode ap s rate ch bits frames D out :
  0 <= pos -> 0 <= D < Z.of_nat n -> D <= (if bits =? 8 then 1 else 2) * Z.of_nat (length out) ->
  exists r' out', BKWaveFileReaderReadFrames n false (mk_reader (mk_file bytes pos mode ap s) rate ch bits frames D) out = Ok (r', out') /\ length out' = length out.
Proof.
  intros P D0 L. destruct (read_frames_spec n bytes pos mode ap s rate ch bits frames D out P D0 L) as (r' & tail & E & LL & _). cbv zeta in *.
  eexists. eexists. split; [exact E|exact LL].
Qed.

(** A file with the given header and data. *)
Definition wav (ch rate bits D : Z) (data : list Z) : list Z := wav_header ch rate bits (36 + D) D ++ data.

Example C59_example : reads 99 false (wav 2 44100 16 12 [1; 0; 2; 0; 3; 0; 4; 0; 5]) 0 7 = Ok (0, (2, 44100, 3), [1; 2; 3; 4; 0; 0]).
Proof. vm_compute. reflexivity. Qed.

(** A data chunk whose last frame lacks a channel is stored beyond the array; the reader
    announces one frame with two channels but stores three values. *)
Theorem C59_overrun_refuted : exists bytes r, Forall byte_ok bytes /\
  BKWaveFileReaderReadHeader 99 false (opened bytes 0) = Ok (r, 0, (2, 44100, 1)) /\
  BKWaveFileReaderReadFrames 99 false r (repeat 0 (2 * 1)) = Err EBounds.
Proof.
  exists (wav 2 44100 16 6 [1; 0; 2; 0; 3; 0]). eexists. split; [|split; [vm_compute; reflexivity|vm_compute; reflexivity]].
  assert (A : forallb (fun b => (0 <=? b) && (b <=? 255)) (wav 2 44100 16 6 [1; 0; 2; 0; 3; 0]) = true) by (vm_compute; reflexivity).
  apply Forall_forall. intros b I. rewrite forallb_forall in A. specialize (A b I). unfold byte_ok. lia.
Qed.

(** With 8 bits half of what is missing is not set to silence. *)
Theorem C59_silence_refuted : exists data, reads 99 false (wav 1 44100 8 6 data) 0 7 = Ok (0, (1, 44100, 6), [0; 256; 0; 0; 7; 7]).
Proof. exists [128; 129]. vm_compute. reflexivity. Qed.

(** The number of frames can be negative. *)
Theorem C59_negative_refuted : exists bytes r, BKWaveFileReaderReadHeader 99 false (opened bytes 0) = Ok (r, 0, (1, 44100, -1073741824)).
Proof. exists (wav 1 44100 16 2147483648 []). eexists. vm_compute. reflexivity. Qed.

(** * C60: parsing any bytes *)

(** Reading the header of any file ends: with an error, with the format given in the file,
    which has at least one channel, or by dividing by the number of channels if the file says 0. *)
Theorem C60_header_total_partial n bytes pos : Forall byte_ok bytes -> 0 <= pos -> Z.of_nat (length bytes) < Z.of_nat n ->
  let b := skipn (Z.to_nat pos) bytes in
  (exists r, BKWaveFileReaderReadHeader n false (opened bytes pos) = Ok (r, -1, (0, 0, 0))) \/
  (exists r frames, BKWaveFileReaderReadHeader n false (opened bytes pos) = Ok (r, 0, (le_val (field 22 2 b), s32 (le_val (field 24 4 b)), frames)) /\
     1 <= le_val (field 22 2 b) /\ field 0 4 b = RIFF /\ field 8 4 b = WAVE /\ field 12 4 b = FMT /\ le_val (field 20 2 b) = 1 /\
     (rd_bits r = 8 \/ rd_bits r = 16) /\ rd_bits r = le_val (field 34 2 b) /\ 0 <= rd_dataSize r) \/
  (BKWaveFileReaderReadHeader n false (opened bytes pos) = Err EDiv0 /\ le_val (field 22 2 b) = 0).
Proof.
  intros F P N. cbv zeta. unfold BKWaveFileReaderReadHeader, opened. cbn [rd_rate]. change (0 =? 0) with true. cbn iota.
  destruct (read_header_total n bytes pos 0 false true F P N) as [(f & X)|[(_ & _ & C & X)|((G1 & G2 & G3 & G4) & B & C & pos' & d & PP & D0 & X)]]; rewrite X; cbn [bind].
  - left. change (-1 =? 0) with false. eexists. reflexivity.
  - right; right. split; [reflexivity|exact C].
  - right; left. change (0 =? 0) with true. eexists. eexists. split; [reflexivity|]. cbn [rd_bits rd_dataSize].
    do 5 (split; [assumption || lia|]). split; [exact B|]. split; [reflexivity|lia].
Qed.

Example C60_example : exists r, BKWaveFileReaderReadHeader 99 false (opened (wav 2 44100 16 4 [1; 2; 3; 4]) 0) = Ok (r, 0, (2, 44100, 1)) /\
  exists r', BKWaveFileReaderReadHeader 99 false (opened [82; 73; 70; 70] 0) = Ok (r', -1, (0, 0, 0)).
Proof. eexists. split; [vm_compute; reflexivity|]. eexists. vm_compute. reflexivity. Qed.

Theorem C60_no_channels_refuted : exists bytes, Forall byte_ok bytes /\ BKWaveFileReaderReadHeader 99 false (opened bytes 0) = Err EDiv0.
Proof.
  exists (wav 0 44100 16 4 [1; 2; 3; 4]). split; [|vm_compute; reflexivity].
  assert (A : forallb (fun b => (0 <=? b) && (b <=? 255)) (wav 0 44100 16 4 [1; 2; 3; 4]) = true) by (vm_compute; reflexivity).
  apply Forall_forall. intros b I. rewrite forallb_forall in A. specialize (A b I). unfold byte_ok. lia.
Qed.

(** * C61: other chunks *)

(** Chunks of even size are skipped. *)
Theorem C61_chunks_partial n pre ch rate bits riff D chunks rest : 1 <= ch <= 65535 -> 0 < rate <= 2147483647 -> bits = 8 \/ bits = 16 -> 0 < D < 2147483648 ->
  Forall chunk_ok chunks -> Forall (fun c => Nat.even (length (snd c)) = true) chunks -> (length chunks < n)%nat ->
  exists r, BKWaveFileReaderReadHeader n false (opened (pre ++ wav_chunks ch rate bits riff D chunks ++ rest) (Z.of_nat (length pre))) =
      Ok (r, 0, (ch, rate, D / (ch * (bits / 8)))) /\
    rd_dataSize r = D /\ skipn (Z.to_nat (f_pos (rd_file r))) (f_bytes (rd_file r)) = rest.
Proof.
  intros C R B DD CO CE L. unfold BKWaveFileReaderReadHeader, opened. cbn [rd_rate]. change (0 =? 0) with true. cbn iota.
  pose proof (read_header_chunks n pre ch rate bits riff D chunks rest 0 false true C R B ltac:(lia) CO CE L _ eq_refl) as X. cbv zeta in X.
  rewrite X. cbn [bind]. change (0 =? 0) with true. cbn iota. cbn [rd_channels rd_rate rd_frames]. clear X.
  assert (DB : data_bytes D rest = D) by (unfold data_bytes; destruct (D =? 0) eqn:?; [lia|reflexivity]). rewrite DB.
  eexists. split.
  - f_equal. f_equal. f_equal. assert (K : 1 <= bits / 8 <= 2) by (destruct B as [-> | ->]; split; discriminate).
    rewrite (s32_id D) by lia. rewrite (Z.quot_div_nonneg D) by lia. assert (0 <= D / ch <= D) by (split; [apply Z.div_pos; lia|apply Z.div_le_upper_bound; nia]).
    rewrite Z.quot_div_nonneg by lia. rewrite Z.div_div by lia. apply s32_id. assert (1 <= ch * (bits / 8)) by nia. set (u := ch * (bits / 8)) in *.
    split; [|apply Z.le_trans with D; [apply Z.div_le_upper_bound; nia|lia]]. assert (0 <= D / u) by (apply Z.div_pos; lia). lia.
  - cbn [rd_dataSize rd_file f_pos f_bytes]. split; [reflexivity|]. rewrite Nat2Z.id, app_assoc, <- app_length. apply skipn_exact.
Qed.

Definition LIST : list Z := [76; 73; 83; 84].
Example C61_example : exists r, BKWaveFileReaderReadHeader 9 false (opened (wav_chunks 1 44100 16 60 4 [(LIST, [1; 2]); (LIST, [])] ++ [1; 0; 2; 0]) 0) = Ok (r, 0, (1, 44100, 2)).
Proof. eexists. vm_compute. reflexivity. Qed.

(** The byte behind a chunk of odd size is not skipped. *)
Theorem C61_odd_chunk_refuted : exists chunks r, Forall chunk_ok chunks /\
  BKWaveFileReaderReadHeader 9 false (opened (wav_chunks 1 44100 16 60 4 chunks ++ [1; 0; 2; 0]) 0) = Ok (r, -1, (0, 0, 0)).
Proof. exists [(LIST, [1; 2; 3])]. eexists. split; [repeat constructor; discriminate|]. vm_compute. reflexivity. Qed.

(** The size of the format chunk is ignored, so one with more than 16 bytes (here 18) is not readable. *)
Definition long_format : list Z :=
  RIFF ++ le32 42 ++ WAVE ++ FMT ++ le32 18 ++ le16 1 ++ le16 1 ++ le32 44100 ++ le32 88200 ++ le16 2 ++ le16 16 ++ le16 0 ++ DATA ++ le32 4 ++ [1; 0; 2; 0].
Theorem C61_long_format_refuted : exists r, BKWaveFileReaderReadHeader 9 false (opened long_format 0) = Ok (r, -1, (0, 0, 0)).
Proof. eexists. vm_compute. reflexivity. Qed.

(** * C62: empty recordings *)

(** Without any call to append frames the header is missing, whatever the format. *)
Theorem C62_no_append_unreadable ch rate bits big : bits = 8 \/ bits = 16 ->
  exists f' r, writes big new_file ch rate bits [] = Ok f' /\ BKWaveFileReaderReadHeader 9 big (opened (f_bytes f') 0) = Ok (r, -1, (0, 0, 0)).
Proof. intros [-> | ->]; destruct big; eexists; eexists; split; reflexivity. Qed.
Theorem C62_no_append_refuted : exists ch rate bits f' r, format_ok ch rate bits /\
  writes false new_file ch rate bits [] = Ok f' /\ BKWaveFileReaderReadHeader 9 false (opened (f_bytes f') 0) = Ok (r, -1, (0, 0, 0)).
Proof.
  destruct (C62_no_append_unreadable 2 44100 16 false (or_intror eq_refl)) as (f' & r & E & R). exists 2, 44100, 16, f', r.
  split; [unfold format_ok; change (16 / 8) with 2; lia|]. split; assumption.
Qed.

(** A call without frames is enough. *)
Theorem C62_empty_append_partial f ch rate bits x : writable f -> format_ok ch rate bits ->
  exists f', writes false f ch rate bits [WAppend []] = Ok f' /\
    forall n, (length (f_bytes f') < n)%nat -> reads n false (f_bytes f') (f_pos f) x = Ok (0, (ch, rate, 0), []).
Proof.
  intros W OK. destruct (round_trip f ch rate bits [WAppend []] x W OK) as (f' & E & R).
  - split; [|exact I]. repeat constructor. cbn [length]. lia.
  - cbn [appended length app]. lia.
  - reflexivity.
  - exists f'. split; [exact E|]. intros n N. rewrite (R n N). cbn [appended length app map]. change (Z.of_nat 0) with 0. rewrite Z.div_0_l; [reflexivity|].
    destruct OK as (C & _). lia.
Qed.

(** * C85: recordings which are not completed *)

Lemma finished_prefix : forall ops before done gs, finished before done ops = Some gs ->
  done = Some gs \/ exists rest, before ++ appended ops = gs ++ rest.
Proof.
  induction ops as [|[fs|] ops IH]; intros before done gs E; cbn [finished appended] in *.
  - left. exact E.
  - destruct (IH _ _ _ E) as [X|[rest X]]; [left; exact X|right]. exists rest. rewrite app_assoc. exact X.
  - destruct (IH _ _ _ E) as [X|[rest X]]; [|right; exists rest; exact X]. right. exists (appended ops). f_equal. congruence.
Qed.

(** Frames a reader finds in the file while it is written. *)
Definition kept (ops : list wop) : list Z :=
  match finished [] None ops with
  | Some (f :: fs) => f :: fs
  | _ => appended ops
  end.

(** If the program ends without terminating the file, the frames up to the last call of
    [BKWaveFileWriterTerminate] can be read, or all of them if there was none. *)
Theorem C85_interrupted_partial f ch rate bits ops x : writable f -> format_ok ch rate bits -> history_ok bits ops ->
  bits / 8 * Z.of_nat (length (kept ops)) < 2147483648 -> Z.of_nat (length (kept ops)) mod ch = 0 ->
  exists w w' f', BKWaveFileWriterInit false f ch rate bits = (0, Some w) /\ wruns false w ops = Ok w' /\ wr_file w' = Some f' /\
    forall n, (length (f_bytes f') < n)%nat ->
      reads n false (f_bytes f') (f_pos f) x = Ok (0, (ch, rate, Z.of_nat (length (kept ops)) / ch), map (quantised bits) (kept ops)).
Proof.
  intros W OK H L M. destruct (init_started f ch rate bits W OK) as (w & E & S).
  destruct (history_run _ _ _ _ _ _ _ OK S H) as (w' & E1 & (WF & _) & _). exists w, w'. eexists. split; [exact E|]. split; [exact E1|]. split; [exact WF|].
  cbv zeta. cbn [f_bytes]. destruct (format_bounds _ _ _ OK) as (C & R & BB). destruct W as (_ & _ & _ & P). unfold fsize in P. rewrite P. clear WF E1.
  pose proof (appended_ok bits ops (proj1 H)) as FO. unfold kept in *. destruct (finished [] None ops) as [[|g gs]|] eqn:FI; cbn [sizes fst snd].
  - assert (ZL : Z.of_nat (length (encode bits [])) = 0) by (destruct BB as [-> | ->]; reflexivity). rewrite ZL. intros n N.
    pose proof (reads_bytes n (f_bytes f) ch rate bits (u32 (Z.of_nat (length (f_bytes f)) + 36 + 0)) (u32 0) (appended ops) [] x) as RB. rewrite app_nil_r in RB.
    apply RB; [exact N|exact C|exact R|exact BB|exact FO|right; split; reflexivity|rewrite encode_length by exact BB; exact L|exact M].
  - destruct (finished_prefix _ _ _ _ FI) as [X|[rest X]]; [discriminate|]. cbn [app] in X.
    assert (A : appended ops = (g :: gs) ++ rest) by exact X. set (G := g :: gs) in *. intros n N. rewrite A, encode_app in *.
    assert (LG : Z.of_nat (length (encode bits G)) < 2147483648) by (rewrite encode_length by exact BB; exact L).
    assert (UG : u32 (Z.of_nat (length (encode bits G))) = Z.of_nat (length (encode bits G))) by (unfold u32; apply Z.mod_small; lia).
    rewrite UG in *.
    apply reads_bytes; [exact N|exact C|exact R|exact BB|apply Forall_app in FO; exact (proj1 FO)| |exact LG|exact M].
    left. split; [reflexivity|]. rewrite encode_length by exact BB. unfold G. cbn [length]. destruct BB as [-> | ->]; [change (8 / 8) with 1|change (16 / 8) with 2]; lia.
  - intros n N.
    pose proof (reads_bytes n (f_bytes f) ch rate bits 0 0 (appended ops) [] x) as RB. rewrite app_nil_r in RB.
    apply RB; [exact N|exact C|exact R|exact BB|exact FO|right; split; reflexivity|rewrite encode_length by exact BB; exact L|exact M].
Qed.

Lemma encode_firstn bits k fs : bits = 8 \/ bits = 16 -> encode bits (firstn k fs) = firstn (Z.to_nat (bits / 8) * k) (encode bits fs).
Proof.
  intros B. destruct (Nat.le_gt_cases (length fs) k) as [K|K].
  - rewrite (firstn_all2 fs) by exact K. symmetry. apply firstn_all2. pose proof (encode_length bits fs B).
    destruct B as [-> | ->]; [change (8 / 8) with 1 in *|change (16 / 8) with 2 in *]; lia.
  - rewrite <- (firstn_skipn k fs) at 2. rewrite encode_app. pose proof (encode_length bits (firstn k fs) B) as L. rewrite firstn_length_le in L by lia.
    assert (LL : (Z.to_nat (bits / 8) * k)%nat = length (encode bits (firstn k fs))) by (destruct B as [-> | ->]; [change (8 / 8) with 1 in *|change (16 / 8) with 2 in *]; lia).
    rewrite LL. symmetry. apply firstn_exact.
Qed.

(** If in addition the last bytes of the file got lost, the frames left in the file can be
    read, as long as it was not terminated. *)
Theorem C85_truncated_partial f ch rate bits ops k x : writable f -> format_ok ch rate bits -> history_ok bits ops -> finished [] None ops = None ->
  let fs := firstn k (appended ops) in
  bits / 8 * Z.of_nat (length fs) < 2147483648 -> Z.of_nat (length fs) mod ch = 0 ->
  exists w w' f', BKWaveFileWriterInit false f ch rate bits = (0, Some w) /\ wruns false w ops = Ok w' /\ wr_file w' = Some f' /\
    let left := firstn (Z.to_nat (f_pos f) + 44 + Z.to_nat (bits / 8) * k) (f_bytes f') in
    forall n, (length left < n)%nat ->
      reads n false left (f_pos f) x = Ok (0, (ch, rate, Z.of_nat (length fs) / ch), map (quantised bits) fs).
Proof.
  intros W OK H FI. cbv zeta. intros L M. destruct (init_started f ch rate bits W OK) as (w & E & S).
  destruct (history_run _ _ _ _ _ _ _ OK S H) as (w' & E1 & (WF & _) & _). exists w, w'. eexists. split; [exact E|]. split; [exact E1|]. split; [exact WF|].
  cbn [f_bytes]. destruct (format_bounds _ _ _ OK) as (C & R & BB). destruct W as (_ & _ & _ & P). unfold fsize in P. rewrite P, Nat2Z.id. clear WF E1.
  rewrite FI. cbn [sizes fst snd].
  assert (LEFT : firstn (length (f_bytes f) + 44 + Z.to_nat (bits / 8) * k) (f_bytes f ++ wav_header ch rate bits 0 0 ++ encode bits (appended ops)) =
     f_bytes f ++ wav_header ch rate bits 0 0 ++ encode bits (firstn k (appended ops))).
  { rewrite !app_assoc. set (a := f_bytes f ++ wav_header ch rate bits 0 0).
    assert (LA : (length (f_bytes f) + 44)%nat = length a) by (unfold a; rewrite app_length, header_length; reflexivity).
    rewrite LA, firstn_app, firstn_all2 by lia. f_equal. rewrite encode_firstn by exact BB. f_equal. lia. }
  rewrite LEFT. intros n N.
  pose proof (reads_bytes n (f_bytes f) ch rate bits 0 0 (firstn k (appended ops)) [] x) as RB. rewrite app_nil_r in RB.
  apply RB; [exact N|exact C|exact R|exact BB| |right; split; reflexivity|rewrite encode_length by exact BB; exact L|exact M].
  apply Forall_firstn. exact (appended_ok bits ops (proj1 H)).
Qed.

Example C85_example : kept stereo_ops = [1; -2] /\
  (match BKWaveFileWriterInit false new_file 2 44100 16 with
   | (_, Some w) => let* w := wruns false w stereo_ops in let* f := the_file w in reads 99 false (f_bytes f) 0 7
   | _ => Err ENull end) = Ok (0, (2, 44100, 1), [1; -2]).
Proof. split; vm_compute; reflexivity. Qed.

(** * C86: reading the header again *)

(** The second call gives the same as the first one. *)
Theorem C86_header_again_partial n n' big r r1 fmt : BKWaveFileReaderReadHeader n big r = Ok (r1, 0, fmt) -> rd_rate r1 <> 0 ->
  BKWaveFileReaderReadHeader n' big r1 = Ok (r1, 0, fmt).
Proof.
  unfold BKWaveFileReaderReadHeader. intros E NZ. destruct (if rd_rate r =? 0 then read_header n big r else Ok (r, 0)) as [[r2 ret]|]; [|discriminate].
  cbn [bind] in E. assert (r2 = r1 /\ ret = 0) as [-> ->] by (split; congruence). change (0 =? 0) with true in *. cbn iota in *.
  destruct (rd_rate r1 =? 0) eqn:Z0; [lia|]. cbn [bind]. change (0 =? 0) with true. cbn iota. congruence.
Qed.

Example C86_example : exists r1, BKWaveFileReaderReadHeader 99 false (opened (wav 2 44100 16 4 [1; 2; 3; 4]) 0) = Ok (r1, 0, (2, 44100, 1)) /\ rd_rate r1 = 44100.
Proof. eexists. split; vm_compute; reflexivity. Qed.

(** A file with sample rate 0 is accepted, but the second call reads a header behind the first one. *)
Theorem C86_header_again_refuted : exists bytes r1 r2, BKWaveFileReaderReadHeader 99 false (opened bytes 0) = Ok (r1, 0, (2, 0, 1)) /\
  BKWaveFileReaderReadHeader 99 false r1 = Ok (r2, -1, (0, 0, 0)).
Proof.
  set (bytes := wav 2 0 16 4 [1; 2; 3; 4]).
  destruct (computed (BKWaveFileReaderReadHeader 99 false (opened bytes 0)) (fun p => let '(r, z, fmt) := p in z = 0 /\ fmt = (2, 0, 1) /\
    match BKWaveFileReaderReadHeader 99 false r with Ok (_, z, fmt) => z = -1 /\ fmt = (0, 0, 0) | Err _ => False end)) as ([[r1 z] fmt] & E & -> & -> & H).
  { vm_compute. repeat split. }
  destruct (BKWaveFileReaderReadHeader 99 false r1) as [[[r2 z] fmt]|] eqn:E2; [|destruct H]. destruct H as [-> ->]. exists bytes, r1, r2. split; [exact E|exact E2].
Qed.

(** * C87: bytes in front of the recording *)

Definition keeps (pre : list Z) (f : file) : Prop := firstn (length pre) (f_bytes f) = pre /\ Z.of_nat (length pre) <= f_pos f.

Lemma keeps_length pre f : keeps pre f -> (length pre <= length (f_bytes f))%nat.
Proof. intros [K _]. rewrite <- K. rewrite firstn_length. lia. Qed.

Lemma firstn_front {A} n (a b : list A) : (n <= length a)%nat -> firstn n (a ++ b) = firstn n a.
Proof. intros L. rewrite firstn_app. replace (n - length a)%nat with 0%nat by lia. cbn [firstn]. apply app_nil_r. Qed.

Lemma keeps_fwrite pre f bs : keeps pre f -> keeps pre (fwrite f bs).
Proof.
  intros K. pose proof (keeps_length _ _ K) as L. destruct K as [K P]. destruct bs as [|b bs]; [split; assumption|]. set (w := b :: bs). unfold fwrite, w. fold w.
  set (pos := if f_append f then length (f_bytes f) else Z.to_nat (f_pos f)). assert (PP : (length pre <= pos)%nat) by (unfold pos; destruct (f_append f); lia).
  split; cbn [f_bytes f_pos]; [|lia]. set (old := f_bytes f ++ repeat 0 (pos - length (f_bytes f))).
  assert (LO : (pos <= length old)%nat) by (unfold old; rewrite app_length, repeat_length; lia).
  rewrite firstn_front by (rewrite firstn_length; lia). rewrite firstn_firstn. replace (Init.Nat.min (length pre) pos) with (length pre) by lia.
  unfold old. rewrite firstn_front by exact L. exact K.
Qed.

Lemma keeps_fseek pre f pos : keeps pre f -> Z.of_nat (length pre) <= pos -> keeps pre (fseek f pos).
Proof. intros [K _] P. split; [exact K|exact P]. Qed.

Definition wkeeps (pre : list Z) (w : writer) : Prop :=
  Z.of_nat (length pre) <= wr_offset w /\ match wr_file w with Some f => keeps pre f | None => True end.

Lemma keeps_loop pre big bits : forall n fs f f', keeps pre f -> write_loop n big bits f fs = Ok f' -> keeps pre f'.
Proof.
  induction n as [|n IH]; intros fs f f' K E; destruct fs as [|v fs]; cbn [write_loop] in E.
  - assert (f = f') as <- by congruence. exact K.
  - discriminate.
  - assert (f = f') as <- by congruence. exact K.
  - exact (IH _ _ _ (keeps_fwrite _ _ _ K) E).
Qed.

Ltac bstep E := let a := fresh "a" in let X := fresh "X" in
  match type of E with bind ?r _ = Ok _ => destruct r as [a|] eqn:X; [cbn [bind] in E|discriminate E] end.

Lemma keeps_header pre big w w' : wkeeps pre w -> BKWaveFileWriterWriteHeader big w = Ok w' -> wkeeps pre w'.
Proof.
  intros [O K] E. unfold BKWaveFileWriterWriteHeader, the_file in E. destruct (wr_file w) as [f|]; [|discriminate]. cbn [bind] in E.
  bstep E. bstep E. bstep E. bstep E. cbv zeta in E.
  match type of E with Ok ?x = Ok ?y => assert (x = y) as <- by congruence end.
  split; [exact O|]. cbn [wr_file]. do 3 apply keeps_fwrite. exact K.
Qed.

Lemma keeps_terminate pre big w w' : wkeeps pre w -> BKWaveFileWriterTerminate big w = Ok w' -> wkeeps pre w'.
Proof.
  intros [O K] E. unfold BKWaveFileWriterTerminate, the_file in E. destruct (wr_file w) as [f|]; [|discriminate]. cbn [bind] in E. cbv zeta in E.
  match type of E with Ok ?x = Ok ?y => assert (x = y) as <- by congruence end.
  split; [exact O|]. cbn [wr_file]. match goal with |- keeps pre (fseek_end ?g) => assert (G : keeps pre g) end.
  { apply keeps_fwrite, keeps_fseek; [|lia]. apply keeps_fwrite, keeps_fseek; [exact K|lia]. }
  unfold fseek_end. apply keeps_fseek; [exact G|]. pose proof (keeps_length _ _ G). unfold fsize. lia.
Qed.

Lemma keeps_step pre big w o w' : wkeeps pre w -> wstep big w o = Ok w' -> wkeeps pre w'.
Proof.
  intros K E. destruct o as [fs|]; cbn [wstep] in E; [|exact (keeps_terminate _ _ _ _ K E)].
  unfold BKWaveFileWriterAppendFrames in E. bstep E. assert (K1 : wkeeps pre a) by (destruct (wr_header w); [congruence|exact (keeps_header _ _ _ _ K X)]).
  clear K X. destruct K1 as [O K]. unfold the_file in E. destruct (wr_file a) as [f|]; [|discriminate]. cbn [bind] in E. bstep E. bstep E. bstep E.
  match type of E with Ok ?x = Ok ?y => assert (x = y) as <- by congruence end. split; [exact O|]. cbn [wr_file].
  destruct (wr_reverse a || negb (wr_bits a =? 16)); [exact (keeps_loop _ _ _ _ _ _ _ K X1)|].
  match type of X1 with Ok ?x = Ok ?y => assert (x = y) as <- by congruence end. apply keeps_fwrite. exact K.
Qed.

(** Nothing in front of the position where a recording starts is changed: for every file,
    also one opened for appending or with bytes behind, every format and on every system. *)
Theorem C87_front_kept f ch rate bits ops big f' : 0 <= f_pos f <= fsize f -> writes big f ch rate bits ops = Ok f' ->
  firstn (Z.to_nat (f_pos f)) (f_bytes f') = firstn (Z.to_nat (f_pos f)) (f_bytes f).
Proof.
  intros P E. unfold writes in E. destruct (BKWaveFileWriterInit big f ch rate bits) as [z [w|]] eqn:IN; [|destruct z; discriminate].
  destruct z; try discriminate. set (pre := firstn (Z.to_nat (f_pos f)) (f_bytes f)).
  assert (LP : length pre = Z.to_nat (f_pos f)) by (unfold pre, fsize in *; rewrite firstn_length; lia).
  assert (K : wkeeps pre w).
  { unfold BKWaveFileWriterInit in IN. destruct (negb (check_writable f =? 0)); [congruence|].
    destruct (negb ((if bits =? 0 then 16 else bits) =? 8) && negb ((if bits =? 0 then 16 else bits) =? 16)); [discriminate|].
    match type of IN with (0, Some ?x) = _ => assert (x = w) as <- by congruence end. split; cbn [wr_offset wr_file]; [lia|]. split; [rewrite LP; reflexivity|lia]. }
  assert (R : forall ops w, wkeeps pre w -> forall w', wruns big w ops = Ok w' -> wkeeps pre w').
  { clear. induction ops as [|o ops IH]; intros w K w' E; cbn [wruns] in E; [congruence|]. bstep E. exact (IH _ (keeps_step _ _ _ _ _ K X) _ E). }
  bstep E. specialize (R _ _ K _ X). unfold BKWaveFileWriterDispose in E. bstep E.
  assert (K2 : wkeeps pre a0) by (destruct (wr_terminated a); [congruence|exact (keeps_terminate _ _ _ _ R X0)]).
  unfold the_file in E. destruct K2 as [_ K2]. destruct (wr_file a0) as [g|]; [|discriminate]. assert (g = f') as -> by congruence.
  destruct K2 as [K2 _]. rewrite LP in K2. exact K2.
Qed.

Example C87_example : exists f', writes false (mk_file [1; 2; 3; 4] 2 2 false true) 1 44100 8 [WAppend [5]; WTerminate] = Ok f' /\ firstn 2 (f_bytes f') = [1; 2].
Proof. apply (computed _ (fun f => firstn 2 (f_bytes f) = [1; 2])). vm_compute. reflexivity. Qed.

(** * C88: pieces *)

(** The file depends only on the frames, not on the pieces in which they are appended or on
    when it is terminated. *)
Theorem C88_pieces_partial f ch rate bits ops ops' : writable f -> format_ok ch rate bits -> history_ok bits ops -> history_ok bits ops' ->
  appended ops = appended ops' ->
  exists f1 f2, writes false f ch rate bits ops = Ok f1 /\ writes false f ch rate bits ops' = Ok f2 /\ f_bytes f1 = f_bytes f2.
Proof.
  intros W OK H H' A. destruct (written f ch rate bits ops W OK H) as (f1 & E1 & B1). destruct (written f ch rate bits ops' W OK H') as (f2 & E2 & B2).
  exists f1, f2. split; [exact E1|]. split; [exact E2|]. rewrite B1, B2, A. reflexivity.
Qed.

Example C88_example : history_ok 16 stereo_ops /\ history_ok 16 [WAppend [1; -2; 32767; -32768; 300; -300]] /\ appended stereo_ops = appended [WAppend [1; -2; 32767; -32768; 300; -300]].
Proof.
  split; [|split; [|reflexivity]]; (split; [|exact I]); repeat constructor; unfold frame_ok; try lia; cbn; discriminate.
Qed.

(** A call to terminate before the first frames is counted in the file. *)
Theorem C88_terminate_first_refuted : exists f ch rate fs f1 f2 r, writable f /\ format_ok ch rate 16 /\
  writes false f ch rate 16 [WTerminate; WAppend fs] = Ok f1 /\ writes false f ch rate 16 [WAppend fs] = Ok f2 /\ f_bytes f1 <> f_bytes f2 /\
  BKWaveFileReaderReadHeader 99 false (opened (f_bytes f1) (f_pos f)) = Ok (r, -1, (0, 0, 0)).
Proof.
  destruct (computed (writes false new_file 1 44100 16 [WTerminate; WAppend [1; 2]]) (fun f => fsize f = 92 /\
    match BKWaveFileReaderReadHeader 99 false (opened (f_bytes f) 0) with Ok (_, z, fmt) => z = -1 /\ fmt = (0, 0, 0) | Err _ => False end)) as (f1 & E1 & S1 & H).
  { vm_compute. repeat split. }
  destruct (computed (writes false new_file 1 44100 16 [WAppend [1; 2]]) (fun f => fsize f = 48)) as (f2 & E2 & S2); [vm_compute; reflexivity|].
  destruct (BKWaveFileReaderReadHeader 99 false (opened (f_bytes f1) 0)) as [[[r z] fmt]|] eqn:E3; [|destruct H]. destruct H as [-> ->].
  exists new_file, 1, 44100, [1; 2], f1, f2, r. split; [split; [right; reflexivity|repeat split]|]. split; [unfold format_ok; change (16 / 8) with 2; lia|].
  split; [exact E1|]. split; [exact E2|]. split; [|exact E3]. unfold fsize in *. intros X. rewrite X in S1. lia.
Qed.

Print Assumptions C55_round_trip_partial.
Print Assumptions C55_big_endian_refuted.
Print Assumptions C55_append_mode_refuted.
Print Assumptions C55_overwrite_refuted.
Print Assumptions C56_quantised_partial.
Print Assumptions C56_append_mode_refuted.
Print Assumptions C56_big_endian_refuted.
Print Assumptions C57_exchanged.
Print Assumptions C57_format_refuted.
Print Assumptions C58_size_field.
Print Assumptions C58_riff_size_partial.
Print Assumptions C58_riff_size_refuted.
Print Assumptions C59_read_frames_partial.
Print Assumptions C59_read_frames_safe.
Print Assumptions C59_overrun_refuted.
Print Assumptions C59_silence_refuted.
Print Assumptions C59_negative_refuted.
Print Assumptions C60_header_total_partial.
Print Assumptions C60_no_channels_refuted.
Print Assumptions C61_chunks_partial.
Print Assumptions C61_odd_chunk_refuted.
Print Assumptions C61_long_format_refuted.
Print Assumptions C62_no_append_unreadable.
Print Assumptions C62_no_append_refuted.
Print Assumptions C62_empty_append_partial.
Print Assumptions C85_interrupted_partial.
Print Assumptions C85_truncated_partial.
Print Assumptions C86_header_again_partial.
Print Assumptions C86_header_again_refuted.
Print Assumptions C87_front_kept.
Print Assumptions C88_pieces_partial.
Print Assumptions C88_terminate_first_refuted.
