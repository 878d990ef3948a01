(** Files, and what the writer writes. *)
From Verif Require Import CInt CIntFacts WaveModel WaveSpec.
Ltac Zify.zify_post_hook ::= idtac.

(** ** Bytes *)

Lemma le_val16 v : le_val (le16 v) = u16 v.
Proof. unfold le16, u16, le_val. Z.to_euclidean_division_equations. lia. Qed.
Lemma le_val32 v : le_val (le32 v) = u32 v.
Proof. unfold le32, u32, le_val. Z.to_euclidean_division_equations. lia. Qed.

Lemma le16_ok v : Forall byte_ok (le16 v).
Proof. unfold le16, byte_ok. repeat constructor; Z.to_euclidean_division_equations; lia. Qed.
Lemma le32_ok v : Forall byte_ok (le32 v).
Proof. unfold le32, byte_ok. repeat constructor; Z.to_euclidean_division_equations; lia. Qed.

Lemma le16_mod v : le16 (v mod 65536) = le16 v.
Proof. unfold le16. f_equal; [|f_equal]; Z.to_euclidean_division_equations; lia. Qed.
Lemma le32_mod v : le32 (v mod 4294967296) = le32 v.
Proof. unfold le32. do 4 (apply (f_equal2 cons); [Z.to_euclidean_division_equations; lia|]). reflexivity. Qed.

Lemma len_le16 v : length (le16 v) = 2%nat. Proof. reflexivity. Qed.
Lemma len_le32 v : length (le32 v) = 4%nat. Proof. reflexivity. Qed.

(** ** Files *)

Lemma skipn_exact {A} (a b : list A) : skipn (length a) (a ++ b) = b.
Proof. rewrite skipn_app, skipn_all, Nat.sub_diag. reflexivity. Qed.
Lemma firstn_exact {A} (a b : list A) : firstn (length a) (a ++ b) = a.
Proof. rewrite firstn_app, firstn_all, Nat.sub_diag. cbn [firstn]. apply app_nil_r. Qed.

(** Writing over bytes of the file. *)
Lemma fwrite_over a old b bs mode s : length old = length bs ->
  fwrite (mk_file (a ++ old ++ b) (Z.of_nat (length a)) mode false s) bs =
  mk_file (a ++ bs ++ b) (Z.of_nat (length a + length bs)) mode false s.
Proof.
  intros L. destruct bs as [|x bs].
  - destruct old; [|discriminate]. cbn [fwrite app length]. rewrite Nat.add_0_r. reflexivity.
  - unfold fwrite. cbn [f_append f_bytes f_pos f_mode f_seekable]. rewrite Nat2Z.id.
    replace (length a - length (a ++ old ++ b))%nat with 0%nat by (rewrite app_length; lia). cbn [repeat]. rewrite app_nil_r.
    rewrite firstn_exact. f_equal. f_equal. f_equal.
    rewrite <- L, app_assoc, <- (app_length a old). apply skipn_exact.
Qed.

(** Writing at the end. *)
Lemma fwrite_end a bs mode s : fwrite (mk_file a (Z.of_nat (length a)) mode false s) bs =
  mk_file (a ++ bs) (Z.of_nat (length (a ++ bs))) mode false s.
Proof.
  destruct bs as [|x bs].
  - cbn [fwrite]. rewrite app_nil_r. reflexivity.
  - unfold fwrite. cbn [f_append f_bytes f_pos f_mode f_seekable]. rewrite Nat2Z.id, Nat.sub_diag. cbn [repeat]. rewrite app_nil_r.
    rewrite firstn_all, skipn_all2 by lia. rewrite app_nil_r, app_length. reflexivity.
Qed.

(** Reading what is there. *)
Lemma fread_exact a bs b mode ap s n : Z.of_nat (length bs) = n ->
  fread (mk_file (a ++ bs ++ b) (Z.of_nat (length a)) mode ap s) n =
  (bs, mk_file (a ++ bs ++ b) (Z.of_nat (length (a ++ bs))) mode ap s).
Proof.
  intros <-. unfold fread. cbn [f_pos f_bytes]. rewrite !Nat2Z.id, skipn_exact, firstn_exact. unfold fseek. cbn [f_bytes f_mode f_append f_seekable].
  rewrite app_length, Nat2Z.inj_add. reflexivity.
Qed.

(** ** The writer *)

Lemma frames_le16 l : concat (map (fun v => mem16 false (u16 v)) l) = concat (map (fun v => le16 (v mod 65536)) l).
Proof. reflexivity. Qed.

Lemma u8_frame v : frame_ok v -> u8 (Z.shiftr v 8 + 128) = v / 256 + 128.
Proof.
  intros F. unfold frame_ok in F. rewrite Z.shiftr_div_pow2 by lia. change (2 ^ 8) with 256. unfold u8. apply Z.mod_small.
  Z.to_euclidean_division_equations. lia.
Qed.

Lemma put_frames8 l : Forall frame_ok l -> concat (map (put_frame false 8) l) = map (fun v => v / 256 + 128) l.
Proof.
  induction 1 as [|v l F _ IH]; [reflexivity|]. cbn [map concat]. rewrite IH. unfold put_frame. change (8 =? 8) with true. cbn iota.
  rewrite (u8_frame v F). reflexivity.
Qed.

Lemma write_loop8 : forall n fs a mode s, Forall frame_ok fs -> (length fs <= n)%nat ->
  write_loop n false 8 (mk_file a (Z.of_nat (length a)) mode false s) fs =
  Ok (mk_file (a ++ encode 8 fs) (Z.of_nat (length (a ++ encode 8 fs))) mode false s).
Proof.
  unfold encode. change (8 =? 8) with true. cbn iota. induction n as [|n IH]; intros fs a mode s F L.
  - destruct fs; [|cbn in L; lia]. cbn. rewrite app_nil_r. reflexivity.
  - destruct fs as [|x fs]; [cbn; rewrite app_nil_r; reflexivity|].
    rewrite <- (firstn_skipn 1024 (x :: fs)) in F. apply Forall_app in F. destruct F as [F1 F2].
    cbn [write_loop]. cbv zeta. rewrite fwrite_end. rewrite put_frames8 by exact F1. rewrite IH; [|exact F2|].
    + rewrite <- app_assoc, <- map_app, firstn_skipn. reflexivity.
    + rewrite skipn_length. cbn [length] in *. lia.
Qed.

Lemma encode_app bits a b : encode bits (a ++ b) = encode bits a ++ encode bits b.
Proof. unfold encode. destruct (bits =? 8); [apply map_app|]. rewrite map_app. apply concat_app. Qed.

Lemma encode_length bits fs : bits = 8 \/ bits = 16 -> Z.of_nat (length (encode bits fs)) = bits / 8 * Z.of_nat (length fs).
Proof.
  intros [-> | ->]; unfold encode.
  - change (8 =? 8) with true. change (8 / 8) with 1. cbn iota. rewrite map_length. lia.
  - change (16 =? 8) with false. change (16 / 8) with 2. cbn iota. induction fs as [|f fs IH]; [reflexivity|]. cbn [map concat]. rewrite app_length, Nat2Z.inj_add, IH, len_le16. cbn [length]. lia.
Qed.

Lemma header_length ch rate bits r d : length (wav_header ch rate bits r d) = 44%nat.
Proof. reflexivity. Qed.

(** State of a writer: bytes before, whether the header is written, size fields and frames so far. *)
Definition wrote (pre : list Z) (mode ch rate bits : Z) (fields : Z * Z) (fs : list Z) (w : writer) : Prop :=
  wr_file w = Some (let b := pre ++ wav_header ch rate bits (fst fields) (snd fields) ++ encode bits fs in mk_file b (Z.of_nat (length b)) mode false true) /\
  wr_offset w = Z.of_nat (length pre) /\ wr_rate w = rate /\ wr_channels w = ch /\ wr_bits w = bits /\
  wr_dataSize w = Z.of_nat (length (encode bits fs)) /\ wr_fileSize w = Z.of_nat (length pre) + 36 + wr_dataSize w /\
  wr_reverse w = false /\ wr_header w = true.

Definition started (pre : list Z) (mode ch rate bits : Z) (w : writer) : Prop :=
  w = mk_writer (Some (mk_file pre (Z.of_nat (length pre)) mode false true)) (Z.of_nat (length pre)) rate ch bits 0 0 false false false.

Lemma in_s32_of x : -2147483648 <= x <= 2147483647 -> in_s32 x = true.
Proof. intros. unfold in_s32. lia. Qed.
Lemma chk32_of x : -2147483648 <= x <= 2147483647 -> chk32 x = Ok x.
Proof. intros. unfold chk32. rewrite in_s32_of by assumption. reflexivity. Qed.

Lemma write_header pre mode ch rate bits w : format_ok ch rate bits -> started pre mode ch rate bits w ->
  exists w', BKWaveFileWriterWriteHeader false w = Ok w' /\ wrote pre mode ch rate bits (0, 0) [] w' /\ wr_terminated w' = false.
Proof.
  intros (C & CB & R & RB & B) ->. unfold BKWaveFileWriterWriteHeader, the_file.
  cbn [wr_file bind wr_rate wr_channels wr_bits wr_reverse wr_offset wr_fileSize wr_dataSize wr_terminated].
  assert (Q : bits / 8 = 1 /\ bits = 8 \/ bits / 8 = 2 /\ bits = 16) by (destruct B as [-> | ->]; [left|right]; split; reflexivity).
  assert (M : rate * ch <= 2147483647 /\ ch * bits <= 2147483647) by (destruct Q as [[_ ->]|[_ ->]]; nia).
  rewrite (chk32_of (rate * ch)) by nia. cbn [bind]. rewrite (chk32_of (rate * ch * bits)) by nia. cbn [bind].
  rewrite (chk32_of (ch * bits)) by nia. cbn [bind].
  assert (A : u16 (Z.quot (ch * bits) 8) = ch * (bits / 8)).
  { assert (Z.quot (ch * bits) 8 = ch * (bits / 8)) as ->.
    { rewrite Z.quot_div_nonneg by nia. destruct Q as [[-> ->]|[-> ->]]; [rewrite Z.div_mul; lia|]. replace (ch * 16) with (ch * 2 * 8) by lia. rewrite Z.div_mul; lia. }
    unfold u16. apply Z.mod_small. nia. }
  rewrite A. rewrite (chk32_of (rate * (ch * (bits / 8)))) by (destruct Q as [[-> ->]|[-> ->]]; nia). cbn [bind]. cbv zeta.
  unfold mem32, mem16. cbn iota. rewrite !fwrite_end.
  eexists. split; [reflexivity|]. unfold wrote. cbn [wr_file wr_offset wr_rate wr_channels wr_bits wr_fileSize wr_dataSize wr_reverse wr_header wr_terminated fst snd].
  assert (E : encode bits [] = []) by (unfold encode; destruct (bits =? 8); reflexivity). rewrite E. cbn [length].
  assert (BY : ((pre ++ RIFF ++ le32 0 ++ WAVE) ++
       FMT ++ le32 16 ++ le16 1 ++ le16 (u16 ch) ++ le32 (u32 rate) ++ le32 (u32 (rate * (ch * (bits / 8)))) ++ le16 (ch * (bits / 8)) ++ le16 (u16 bits)) ++
       DATA ++ le32 0 = pre ++ wav_header ch rate bits 0 0 ++ []).
  { unfold u16, u32. rewrite !le16_mod, !le32_mod. unfold wav_header. rewrite app_nil_r, Z.mul_assoc, <- !app_assoc. reflexivity. }
  split; [split|].
  - rewrite BY. reflexivity.
  - repeat split. cbn [f_pos]. rewrite BY, app_nil_r, app_length, header_length. lia.
  - reflexivity.
Qed.

Lemma bits_quot bits : bits = 8 \/ bits = 16 -> Z.quot bits 8 = bits / 8.
Proof. intros [-> | ->]; reflexivity. Qed.

Lemma append_step pre mode ch rate bits fields fs w new : format_ok ch rate bits -> wrote pre mode ch rate bits fields fs w ->
  append_ok bits (WAppend new) ->
  exists w', BKWaveFileWriterAppendFrames false w new = Ok w' /\ wrote pre mode ch rate bits fields (fs ++ new) w' /\ wr_terminated w' = false.
Proof.
  intros (_ & _ & _ & _ & B) (W1 & W2 & W3 & W4 & W5 & W6 & W7 & W8 & W9) [F L]. unfold BKWaveFileWriterAppendFrames. rewrite W9. cbn [bind].
  unfold the_file. rewrite W1, W5, W8. cbn [bind]. cbv zeta.
  assert (Q : 1 <= bits / 8 <= 2) by (destruct B as [-> | ->]; split; discriminate).
  rewrite (chk32_of (Z.of_nat (length new))) by nia. cbn [bind]. rewrite (bits_quot bits B).
  rewrite (chk32_of (bits / 8 * Z.of_nat (length new))) by nia. cbn [bind orb].
  set (b := pre ++ wav_header ch rate bits (fst fields) (snd fields) ++ encode bits fs) in *.
  assert (E : (if negb (bits =? 16) then write_loop (length new) false bits (mk_file b (Z.of_nat (length b)) mode false true) new
       else Ok (fwrite (mk_file b (Z.of_nat (length b)) mode false true) (concat (map (fun v => mem16 false (u16 v)) new)))) =
       Ok (mk_file (b ++ encode bits new) (Z.of_nat (length (b ++ encode bits new))) mode false true)).
  { destruct B as [-> | ->].
    - change (negb (8 =? 16)) with true. cbn iota. apply write_loop8; [exact F|lia].
    - change (negb (16 =? 16)) with false. cbn iota. rewrite fwrite_end, frames_le16. reflexivity. }
  rewrite E. cbn [bind]. eexists. split; [reflexivity|].
  assert (X : b ++ encode bits new = pre ++ wav_header ch rate bits (fst fields) (snd fields) ++ encode bits (fs ++ new)).
  { unfold b. rewrite encode_app, <- !app_assoc. reflexivity. }
  rewrite X. unfold wrote. cbn [wr_file wr_offset wr_rate wr_channels wr_bits wr_fileSize wr_dataSize wr_reverse wr_header wr_terminated].
  split; [|reflexivity]. split; [reflexivity|]. split; [exact W2|]. split; [exact W3|]. split; [exact W4|]. split; [reflexivity|].
  rewrite encode_app, app_length, Nat2Z.inj_add, (encode_length bits new B), W7, <- W6. split; [lia|]. split; [lia|]. split; [reflexivity|first [reflexivity|exact W9]].
Qed.

Lemma header_split ch rate bits r d : exists a b c, length a = 4%nat /\ length b = 28%nat /\ length c = 4%nat /\
  forall r' d', wav_header ch rate bits r' d' = a ++ le32 r' ++ b ++ c ++ le32 d' /\ wav_header ch rate bits r d = a ++ le32 r ++ b ++ c ++ le32 d.
Proof.
  exists RIFF, (WAVE ++ FMT ++ le32 16 ++ le16 1 ++ le16 ch ++ le32 rate ++ le32 (rate * ch * (bits / 8)) ++ le16 (ch * (bits / 8)) ++ le16 bits), DATA.
  split; [reflexivity|]. split; [reflexivity|]. split; [reflexivity|]. intros r' d'. unfold wav_header. rewrite <- !app_assoc. split; reflexivity.
Qed.

Lemma terminate_step pre mode ch rate bits fields fs w : wrote pre mode ch rate bits fields fs w ->
  exists w', BKWaveFileWriterTerminate false w = Ok w' /\
    (let n := Z.of_nat (length (encode bits fs)) in wrote pre mode ch rate bits (u32 (Z.of_nat (length pre) + 36 + n), u32 n) fs w') /\ wr_terminated w' = true.
Proof.
  intros (W1 & W2 & W3 & W4 & W5 & W6 & W7 & W8 & W9). unfold BKWaveFileWriterTerminate, the_file. rewrite W1, W8. cbn [bind]. cbv zeta.
  unfold mem32. cbn iota. rewrite W2. destruct fields as [r d]. cbn [fst snd].
  destruct (header_split ch rate bits r d) as (a & b & c & LA & LB & LC & H).
  set (R := u32 (wr_fileSize w)). set (D := u32 (wr_dataSize w)).
  assert (E1 : fseek (mk_file (pre ++ wav_header ch rate bits r d ++ encode bits fs) (Z.of_nat (length (pre ++ wav_header ch rate bits r d ++ encode bits fs))) mode false true) (Z.of_nat (length pre) + 4)
     = mk_file ((pre ++ a) ++ le32 r ++ (b ++ c ++ le32 d ++ encode bits fs)) (Z.of_nat (length (pre ++ a))) mode false true).
  { unfold fseek. cbn [f_bytes f_mode f_append f_seekable]. rewrite (proj2 (H r d)). rewrite <- !app_assoc, app_length, LA. f_equal. lia. }
  rewrite E1. clear E1. rewrite (fwrite_over (pre ++ a) (le32 r) _ (le32 R)) by reflexivity.
  assert (E2 : fseek (mk_file ((pre ++ a) ++ le32 R ++ b ++ c ++ le32 d ++ encode bits fs) (Z.of_nat (length (pre ++ a) + length (le32 R))) mode false true) (Z.of_nat (length pre) + 12 + 24 + 4)
     = mk_file ((pre ++ a ++ le32 R ++ b) ++ c ++ le32 d ++ encode bits fs) (Z.of_nat (length (pre ++ a ++ le32 R ++ b ++ c))) mode false true).
  { unfold fseek. cbn [f_bytes f_mode f_append f_seekable]. rewrite <- !app_assoc. f_equal. rewrite !app_length, LA, LB, LC, len_le32. lia. }
  rewrite E2. clear E2.
  assert (E3 : fwrite (mk_file ((pre ++ a ++ le32 R ++ b) ++ c ++ le32 d ++ encode bits fs) (Z.of_nat (length (pre ++ a ++ le32 R ++ b ++ c))) mode false true) (le32 D)
     = mk_file (pre ++ wav_header ch rate bits R D ++ encode bits fs) (Z.of_nat (length (pre ++ a ++ le32 R ++ b ++ c) + 4)) mode false true).
  { replace ((pre ++ a ++ le32 R ++ b) ++ c ++ le32 d ++ encode bits fs) with ((pre ++ a ++ le32 R ++ b ++ c) ++ le32 d ++ encode bits fs) by (rewrite <- !app_assoc; reflexivity).
    rewrite (fwrite_over _ (le32 d) _ (le32 D)) by reflexivity. rewrite (proj1 (H R D)). rewrite <- !app_assoc. reflexivity. }
  rewrite E3. eexists. split; [reflexivity|]. split; [|reflexivity].
  unfold fseek_end, fseek, fsize, wrote. cbn [f_bytes f_mode f_append f_seekable wr_file wr_offset wr_rate wr_channels wr_bits wr_fileSize wr_dataSize wr_reverse wr_header wr_terminated fst snd].
  unfold R, D. rewrite W7, W6. repeat split; try assumption; try reflexivity; lia.
Qed.

(** The size fields after a history. *)
Definition sizes (pre : list Z) (bits : Z) (done : option (list Z)) : Z * Z :=
  match done with
  | None => (0, 0)
  | Some fs => let n := Z.of_nat (length (encode bits fs)) in (u32 (Z.of_nat (length pre) + 36 + n), u32 n)
  end.

Lemma history_steps pre mode ch rate bits : format_ok ch rate bits -> forall ops fs done w,
  wrote pre mode ch rate bits (sizes pre bits done) fs w -> Forall (append_ok bits) ops ->
  exists w', wruns false w ops = Ok w' /\ wrote pre mode ch rate bits (sizes pre bits (finished fs done ops)) (fs ++ appended ops) w' /\
    (ops <> [] -> wr_terminated w' = true -> finished fs done ops = Some (fs ++ appended ops)) /\
    (ops = [] -> w' = w).
Proof.
  intros OK. induction ops as [|o ops IH]; intros fs done w W F.
  - exists w. cbn [appended finished]. rewrite app_nil_r. split; [reflexivity|]. split; [exact W|]. split; [congruence|reflexivity].
  - pose proof (Forall_inv F) as A. pose proof (Forall_inv_tail F) as T. destruct o as [new|].
    + destruct (append_step _ _ _ _ _ _ _ _ new OK W A) as (w1 & E1 & W1 & N1).
      destruct (IH (fs ++ new) done w1 W1 T) as (w2 & E2 & W2 & T2 & I2). exists w2. cbn [wruns wstep appended finished]. rewrite E1. cbn [bind].
      rewrite app_assoc. split; [exact E2|]. split; [exact W2|]. split; [|discriminate]. intros _ TT. destruct ops as [|o ops].
      * rewrite (I2 eq_refl), N1 in TT. discriminate.
      * apply T2; [discriminate|exact TT].
    + destruct (terminate_step _ _ _ _ _ _ _ _ W) as (w1 & E1 & W1 & N1). cbv zeta in W1.
      destruct (IH fs (Some fs) w1 W1 T) as (w2 & E2 & W2 & T2 & I2). exists w2. cbn [wruns wstep appended finished]. rewrite E1. cbn [bind].
      split; [exact E2|]. split; [exact W2|]. split; [|discriminate]. intros _ TT. destruct ops as [|o ops].
      * cbn [finished appended]. rewrite app_nil_r. reflexivity.
      * apply T2; [discriminate|exact TT].
Qed.

(** A writer whose first call appends frames. *)
Lemma history_run pre mode ch rate bits w ops : format_ok ch rate bits -> started pre mode ch rate bits w -> history_ok bits ops ->
  exists w', wruns false w ops = Ok w' /\ wrote pre mode ch rate bits (sizes pre bits (finished [] None ops)) (appended ops) w' /\
    (wr_terminated w' = true -> finished [] None ops = Some (appended ops)).
Proof.
  intros OK S [F H]. destruct ops as [|[new|] ops]; try contradiction.
  destruct (write_header _ _ _ _ _ _ OK S) as (w1 & E1 & W1 & N1).
  destruct (append_step _ _ _ _ _ _ _ _ new OK W1 (Forall_inv F)) as (w2 & E2 & W2 & N2). cbn [app] in W2.
  assert (E : BKWaveFileWriterAppendFrames false w new = Ok w2).
  { unfold BKWaveFileWriterAppendFrames in *. rewrite S at 1. cbn [wr_header]. rewrite E1. cbn [bind].
    destruct W1 as (_ & _ & _ & _ & _ & _ & _ & _ & W9). rewrite W9 in E2. exact E2. }
  destruct (history_steps _ _ _ _ _ OK ops new None w2 W2 (Forall_inv_tail F)) as (w3 & E3 & W3 & T3 & I3).
  exists w3. cbn [wruns wstep appended finished app]. rewrite E. cbn [bind]. split; [exact E3|]. split; [exact W3|].
  intros TT. destruct ops as [|o ops]; [|apply T3; [discriminate|exact TT]]. rewrite (I3 eq_refl), N2 in TT. discriminate.
Qed.

(** Disposing terminates the file. *)
Lemma history_dispose pre mode ch rate bits w ops : format_ok ch rate bits -> started pre mode ch rate bits w -> history_ok bits ops ->
  exists w' f', wruns false w ops = Ok w' /\ BKWaveFileWriterDispose false w' = Ok f' /\
    f' = (let s := sizes pre bits (Some (appended ops)) in let b := pre ++ wav_header ch rate bits (fst s) (snd s) ++ encode bits (appended ops) in mk_file b (Z.of_nat (length b)) mode false true).
Proof.
  intros OK S H. destruct (history_run _ _ _ _ _ _ _ OK S H) as (w' & E & W & T). exists w'. unfold BKWaveFileWriterDispose.
  destruct (wr_terminated w') eqn:TT.
  - eexists. split; [exact E|]. cbn [bind]. unfold the_file. rewrite (proj1 W), (T eq_refl). split; reflexivity.
  - destruct (terminate_step _ _ _ _ _ _ _ _ W) as (w2 & E2 & W2 & _). cbv zeta in W2. rewrite E2. cbn [bind]. unfold the_file. rewrite (proj1 W2).
    eexists. split; [exact E|]. split; reflexivity.
Qed.

Lemma header_u32 ch rate bits r d : wav_header ch rate bits (u32 r) (u32 d) = wav_header ch rate bits r d.
Proof. unfold wav_header, u32. rewrite !le32_mod. reflexivity. Qed.
