(** Property of recordings on a full disk: C110. *)
From Verif Require Import CInt CIntFacts WaveModel WaveSpec WaveProofs WaveReaderProofs PropertiesWave DiskModel.
Ltac Zify.zify_post_hook ::= idtac.

(** ** What a full disk leaves of a file *)

Definition cut (room : nat) (f : file) : file :=
  mk_file (firstn room (f_bytes f)) (Z.min (f_pos f) (Z.of_nat room)) (f_mode f) (f_append f) (f_seekable f).

Definition good (f : file) : Prop := f_append f = false /\ 0 <= f_pos f <= fsize f.

Lemma fwrite_good f bs : good f -> good (fwrite f bs) /\ f_pos (fwrite f bs) = f_pos f + Z.of_nat (length bs) /\ fsize f <= fsize (fwrite f bs).
Proof.
  intros [A P]. destruct bs as [|x bs]; [cbn [fwrite length]; repeat split; try assumption; lia|]. set (b := x :: bs).
  assert (E : fwrite f b = mk_file (firstn (Z.to_nat (f_pos f)) (f_bytes f) ++ b ++ skipn (Z.to_nat (f_pos f) + length b) (f_bytes f)) (Z.of_nat (Z.to_nat (f_pos f) + length b)) (f_mode f) false (f_seekable f)).
  { unfold fwrite, b. rewrite A. unfold fsize in P. replace (Z.to_nat (f_pos f) - length (f_bytes f))%nat with 0%nat by lia. cbn [repeat]. rewrite app_nil_r. reflexivity. }
  rewrite E. unfold good, fsize in *. cbn [f_append f_pos f_bytes]. rewrite !app_length, firstn_length, skipn_length. repeat split; lia.
Qed.

Lemma fwrite_cut room f bs : good f -> fwrite_on room (cut room f) bs = cut room (fwrite f bs).
Proof.
  intros [A P]. unfold fwrite_on, start. cbn [cut f_append f_pos f_bytes]. rewrite A. cbn iota. unfold fsize in P.
  set (p := Z.to_nat (f_pos f)). assert (PP : f_pos f = Z.of_nat p) by lia. assert (PL : (p <= length (f_bytes f))%nat) by lia.
  assert (S : Z.to_nat (Z.min (f_pos f) (Z.of_nat room)) = Nat.min p room) by lia. rewrite S.
  destruct bs as [|x bs]; [rewrite firstn_nil; cbn [fwrite]; reflexivity|]. set (b := x :: bs).
  assert (EF : fwrite f b = mk_file (firstn p (f_bytes f) ++ b ++ skipn (p + length b) (f_bytes f)) (Z.of_nat (p + length b)) (f_mode f) false (f_seekable f)).
  { unfold fwrite, b. rewrite A. fold p. replace (p - length (f_bytes f))%nat with 0%nat by lia. cbn [repeat]. rewrite app_nil_r. reflexivity. }
  rewrite EF. clear EF. destruct (Nat.le_gt_cases room p) as [R|R].
  - replace (room - Nat.min p room)%nat with 0%nat by lia. cbn [firstn fwrite]. unfold cut. cbn [f_bytes f_pos f_mode f_append f_seekable]. rewrite A. f_equal.
    + rewrite firstn_app, firstn_firstn, firstn_length. replace (room - Nat.min p (length (f_bytes f)))%nat with 0%nat by lia. cbn [firstn]. rewrite app_nil_r. f_equal. lia.
    + lia.
  - replace (Nat.min p room) with p by lia.
    assert (EB : exists y c, firstn (room - p) b = y :: c) by (unfold b; destruct (room - p)%nat as [|k] eqn:K; [lia|]; cbn [firstn]; eauto).
    destruct EB as (y & c & EB). rewrite EB. unfold fwrite. cbn [cut f_append f_bytes f_pos f_mode f_seekable]. rewrite A. cbn iota. rewrite <- EB. clear y c EB.
    rewrite S. replace (Nat.min p room) with p by lia. rewrite !firstn_length.
    replace (p - Nat.min room (length (f_bytes f)))%nat with 0%nat by lia. cbn [repeat]. rewrite app_nil_r. unfold cut. cbn [f_bytes f_pos f_mode f_append f_seekable]. f_equal.
    + rewrite firstn_firstn. replace (Nat.min p room) with p by lia. rewrite firstn_app, firstn_firstn, firstn_length. replace (Nat.min room p) with p by lia.
      replace (Nat.min p (length (f_bytes f))) with p by lia. f_equal. rewrite firstn_app. f_equal. rewrite skipn_firstn_comm.
      destruct (Nat.le_gt_cases (length b) (room - p)) as [B|B].
      * replace (Nat.min (room - p) (length b)) with (length b) by lia. f_equal. lia.
      * replace (room - (p + Nat.min (room - p) (length b)))%nat with 0%nat by lia. replace (room - p - length b)%nat with 0%nat by lia. reflexivity.
    + lia.
Qed.

(** ** Writers on a full disk *)

Definition wcut (room : nat) (w : writer) : writer :=
  mk_writer (option_map (cut room) (wr_file w)) (wr_offset w) (wr_rate w) (wr_channels w) (wr_bits w)
            (wr_fileSize w) (wr_dataSize w) (wr_reverse w) (wr_header w) (wr_terminated w).

Ltac wcuts room w :=
  try change (wr_rate (wcut room w)) with (wr_rate w) in *; try change (wr_channels (wcut room w)) with (wr_channels w) in *;
  try change (wr_bits (wcut room w)) with (wr_bits w) in *; try change (wr_reverse (wcut room w)) with (wr_reverse w) in *;
  try change (wr_offset (wcut room w)) with (wr_offset w) in *; try change (wr_fileSize (wcut room w)) with (wr_fileSize w) in *;
  try change (wr_dataSize (wcut room w)) with (wr_dataSize w) in *; try change (wr_terminated (wcut room w)) with (wr_terminated w) in *;
  try change (wr_header (wcut room w)) with (wr_header w) in *.

Definition ready (room : nat) (w : writer) : Prop := exists f, wr_file w = Some f /\ good f /\ 0 <= wr_offset w /\ wr_offset w + 44 <= Z.of_nat room /\
  (if wr_header w then wr_offset w + 44 <= fsize f else f_pos f = wr_offset w).

Lemma header_on room big w w' : ready room w -> wr_header w = false -> BKWaveFileWriterWriteHeader big w = Ok w' ->
  write_header_on room big (wcut room w) = Ok (0, wcut room w') /\ ready room w' /\ wr_header w' = true.
Proof.
  intros (f & F & G & O & R & H) HH E. rewrite HH in H. unfold BKWaveFileWriterWriteHeader in E. unfold write_header_on. unfold the_file in *. unfold wcut at 1. cbn [wr_file]. rewrite F in *. cbn [bind option_map] in *.
  wcuts room w.
  destruct (chk32 (wr_rate w * wr_channels w)) as [m|]; cbn [bind] in *; [|discriminate].
  destruct (chk32 (m * wr_bits w)) as [m'|]; cbn [bind] in *; [|discriminate].
  destruct (chk32 (wr_channels w * wr_bits w)) as [a|]; cbn [bind] in *; [|discriminate].
  destruct (chk32 (wr_rate w * u16 (Z.quot a 8))) as [r|]; cbn [bind] in *; [|discriminate]. cbv zeta in *.
  set (b1 := RIFF ++ mem32 big 0 ++ WAVE) in *.
  match type of E with context [fwrite (fwrite f b1) ?b] => set (b2 := b) in * end.
  set (b3 := DATA ++ mem32 big 0) in *.
  assert (L : Z.of_nat (length b1 + length b2 + length b3) = 44) by (unfold b1, b2, b3; destruct big; cbn [mem32 mem16]; rewrite !app_length; cbn; reflexivity).
  destruct (fwrite_good f b1 G) as (G1 & P1 & S1). destruct (fwrite_good _ b2 G1) as (G2 & P2 & S2). destruct (fwrite_good _ b3 G2) as (G3 & P3 & S3).
  rewrite (fwrite_cut room f b1 G), (fwrite_cut room _ b2 G1), (fwrite_cut room _ b3 G2).
  set (f3 := fwrite (fwrite (fwrite f b1) b2) b3) in *.
  assert (PP : f_pos f3 = wr_offset w + 44) by lia.
  assert (E' : w' = mk_writer (Some f3) (wr_offset w) (wr_rate w) (wr_channels w) (wr_bits w) (wr_fileSize w + (f_pos f3 - 8)) (wr_dataSize w) (wr_reverse w) true (wr_terminated w)) by congruence.
  clear E. subst w'. split; [|split].
  - unfold wcut. cbn [wr_file wr_offset wr_rate wr_channels wr_bits wr_fileSize wr_dataSize wr_reverse wr_header wr_terminated option_map cut f_pos]. rewrite Z.min_l by lia. reflexivity.
  - exists f3. cbn [wr_file wr_offset wr_header]. split; [reflexivity|]. split; [exact G3|]. split; [exact O|]. split; [exact R|]. destruct G3 as [_ G3]. lia.
  - reflexivity.
Qed.

Lemma loop_on room big bits : forall n fs f f', good f -> write_loop n big bits f fs = Ok f' ->
  write_loop_on room n big bits (cut room f) fs = Ok (cut room f') /\ good f' /\ fsize f <= fsize f'.
Proof.
  induction n as [|n IH]; intros fs f f' G E; destruct fs as [|x fs]; cbn [write_loop write_loop_on] in *; try discriminate.
  - assert (f = f') as -> by congruence. split; [reflexivity|]. split; [exact G|lia].
  - assert (f = f') as -> by congruence. split; [reflexivity|]. split; [exact G|lia].
  - cbv zeta in *. match type of E with context [fwrite f ?bb] => set (b := bb) in * end. destruct (fwrite_good f b G) as (G1 & _ & S1).
    rewrite (fwrite_cut room f b G). destruct (IH _ _ _ G1 E) as (X & Y & S2). split; [exact X|]. split; [exact Y|lia].
Qed.

Lemma append_cut room big w w' fs : ready room w -> BKWaveFileWriterAppendFrames big w fs = Ok w' ->
  append_on room big (wcut room w) fs = Ok (0, wcut room w') /\ ready room w' /\ wr_header w' = true.
Proof.
  intros R E. unfold BKWaveFileWriterAppendFrames in E. unfold append_on.
  assert (H : exists w1, (if wr_header w then Ok w else BKWaveFileWriterWriteHeader big w) = Ok w1 /\
     (if wr_header (wcut room w) then Ok (0, wcut room w) else write_header_on room big (wcut room w)) = Ok (0, wcut room w1) /\ ready room w1 /\ wr_header w1 = true).
  { cbn [wcut wr_header]. destruct (wr_header w) eqn:HH; [exists w; split; [reflexivity|split; [reflexivity|split; assumption]]|].
    destruct (BKWaveFileWriterWriteHeader big w) as [w1|] eqn:E1; cbn [bind] in E; [|discriminate]. exists w1. split; [reflexivity|]. apply header_on; assumption. }
  destruct H as (w1 & H1 & H2 & (f & F & G & O & RR & HH) & H4). rewrite H1 in E. rewrite H2. cbn [bind] in *. change (0 <? 0) with false. cbn iota. clear H1 H2 R.
  rewrite H4 in HH. unfold the_file in *. unfold wcut at 1. cbn [wr_file]. rewrite F in *. cbn [bind option_map] in *.
  wcuts room w1.
  destruct (chk32 (Z.of_nat (length fs))) as [k|]; cbn [bind] in *; [|discriminate].
  destruct (chk32 (Z.quot (wr_bits w1) 8 * k)) as [d|]; cbn [bind] in *; [|discriminate].
  assert (X : exists f', (if wr_reverse w1 || negb (wr_bits w1 =? 16) then write_loop (length fs) big (wr_bits w1) f fs else Ok (fwrite f (concat (map (fun v => mem16 big (u16 v)) fs)))) = Ok f' /\
     (if wr_reverse w1 || negb (wr_bits w1 =? 16) then write_loop_on room (length fs) big (wr_bits w1) (cut room f) fs else Ok (fwrite_on room (cut room f) (concat (map (fun v => mem16 big (u16 v)) fs)))) = Ok (cut room f') /\
     good f' /\ fsize f <= fsize f').
  { destruct (wr_reverse w1 || negb (wr_bits w1 =? 16)).
    - destruct (write_loop (length fs) big (wr_bits w1) f fs) as [f'|] eqn:E1; cbn [bind] in E; [|discriminate]. exists f'. split; [reflexivity|]. apply loop_on; assumption.
    - eexists. split; [reflexivity|]. rewrite fwrite_cut by exact G. split; [reflexivity|]. destruct (fwrite_good f (concat (map (fun v => mem16 big (u16 v)) fs)) G) as (A & _ & B). split; assumption. }
  destruct X as (f' & X1 & X2 & G' & S'). rewrite X1 in E. rewrite X2. cbn [bind] in *.
  assert (E' : w' = mk_writer (Some f') (wr_offset w1) (wr_rate w1) (wr_channels w1) (wr_bits w1) (wr_fileSize w1 + d) (wr_dataSize w1 + d) (wr_reverse w1) (wr_header w1) false) by congruence.
  clear E. subst w'. split; [reflexivity|]. split; [|exact H4].
  exists f'. cbn [wr_file wr_offset wr_header]. rewrite H4. split; [reflexivity|]. split; [exact G'|]. split; [exact O|]. split; [exact RR|lia].
Qed.

Lemma fseek_cut room f pos : 0 <= pos <= Z.of_nat room -> fseek (cut room f) pos = cut room (fseek f pos).
Proof. intros P. unfold fseek, cut. cbn [f_bytes f_pos f_mode f_append f_seekable]. rewrite Z.min_l by lia. reflexivity. Qed.

Lemma terminate_cut room big w w' : ready room w -> wr_header w = true -> BKWaveFileWriterTerminate big w = Ok w' ->
  terminate_on room true big (wcut room w) = Ok (0, wcut room w') /\ ready room w' /\ wr_header w' = true.
Proof.
  intros (f & F & G & O & R & H) HH E. rewrite HH in H. unfold BKWaveFileWriterTerminate in E. unfold terminate_on, the_file in *. unfold wcut at 1. cbn [wr_file]. rewrite F in *. cbn [bind option_map] in *. cbv zeta in *.
  wcuts room w.
  unfold fseek_on. cbn [orb].
  match type of E with context [fwrite (fseek f ?p) ?b] => set (b1 := b) in *; set (p1 := p) in * end.
  match type of E with context [fwrite (fseek _ ?p) ?b] => match p with p1 => fail 1 | _ => set (b2 := b) in *; set (p2 := p) in * end end.
  assert (G1 : good (fseek f p1)) by (destruct G as [A _]; split; [exact A|]; unfold fsize in *; unfold fseek, p1; cbn [f_pos f_bytes]; lia).
  rewrite (fseek_cut room f p1) by (unfold p1; lia). rewrite fwrite_cut by exact G1.
  destruct (fwrite_good _ b1 G1) as (G2 & _ & S2). set (f1 := fwrite (fseek f p1) b1) in *.
  assert (S2' : fsize f <= fsize f1) by exact S2.
  assert (G3 : good (fseek f1 p2)) by (destruct G2 as [A _]; split; [exact A|]; unfold fsize in *; unfold fseek, p2; cbn [f_pos f_bytes]; lia).
  rewrite (fseek_cut room f1 p2) by (unfold p2; lia). rewrite fwrite_cut by exact G3.
  destruct (fwrite_good _ b2 G3) as (G4 & _ & S4). set (f2 := fwrite (fseek f1 p2) b2) in *.
  assert (S4' : fsize f1 <= fsize f2) by exact S4.
  assert (E' : w' = mk_writer (Some (fseek_end f2)) (wr_offset w) (wr_rate w) (wr_channels w) (wr_bits w) (wr_fileSize w) (wr_dataSize w) (wr_reverse w) (wr_header w) true) by congruence.
  clear E. subst w'. split; [|split; [|exact HH]].
  - unfold wcut. cbn [wr_file wr_offset wr_rate wr_channels wr_bits wr_fileSize wr_dataSize wr_reverse wr_header wr_terminated option_map].
    assert (X : fseek (cut room f2) (fsize (cut room f2)) = cut room (fseek_end f2)).
    { unfold fseek_end, fseek, cut, fsize. cbn [f_bytes f_pos f_mode f_append f_seekable]. rewrite firstn_length. f_equal. lia. }
    rewrite X. reflexivity.
  - exists (fseek_end f2). cbn [wr_file wr_offset wr_header]. rewrite HH. split; [reflexivity|]. split; [|split; [exact O|split; [exact R|]]].
    + destruct G4 as [A _]. split; [exact A|]. unfold fseek_end, fseek, fsize. cbn [f_pos f_bytes]. lia.
    + unfold fseek_end, fseek, fsize in *. cbn [f_bytes]. lia.
Qed.

(** The values returned are those of an unlimited disk. *)
Lemma runs_cut room big : forall ops w w', ready room w -> wr_header w = true -> wruns big w ops = Ok w' ->
  wruns_on room true big (wcut room w) ops = Ok (repeat 0 (length ops), wcut room w') /\ ready room w' /\ wr_header w' = true.
Proof.
  induction ops as [|o ops IH]; intros w w' R H E; cbn [wruns wruns_on length repeat] in *.
  - assert (w = w') as -> by congruence. split; [reflexivity|]. split; assumption.
  - destruct (wstep big w o) as [w1|] eqn:E1; cbn [bind] in E; [|discriminate].
    assert (X : wstep_on room true big (wcut room w) o = Ok (0, wcut room w1) /\ ready room w1 /\ wr_header w1 = true).
    { destruct o as [fs|]; cbn [wstep wstep_on] in *; [apply append_cut|apply terminate_cut]; assumption. }
    destruct X as (X & R1 & H1). rewrite X. cbn [bind]. destruct (IH w1 w' R1 H1 E) as (Y & R2 & H2). rewrite Y. cbn [bind]. split; [reflexivity|]. split; assumption.
Qed.

Lemma runs_cut0 room big ops w w' bits : ready room w -> history_ok bits ops -> wruns big w ops = Ok w' ->
  wruns_on room true big (wcut room w) ops = Ok (repeat 0 (length ops), wcut room w') /\ ready room w' /\ wr_header w' = true.
Proof.
  intros R [_ H] E. destruct ops as [|[fs|] ops]; try contradiction. cbn [wruns wruns_on length repeat wstep wstep_on] in *.
  destruct (BKWaveFileWriterAppendFrames big w fs) as [w1|] eqn:E1; cbn [bind] in E; [|discriminate].
  destruct (append_cut room big w w1 fs R E1) as (X & R1 & H1). rewrite X. cbn [bind]. destruct (runs_cut room big ops w1 w' R1 H1 E) as (Y & R2 & H2). rewrite Y. cbn [bind].
  split; [reflexivity|]. split; assumption.
Qed.

(** ** Reading what is left *)

Lemma fit_short bits m L : bits = 8 \/ bits = 16 -> 0 <= m -> 0 <= L ->
  fit bits (Z.min (bits / 8 * L) (Z.min m (bits / 8 * L))) = bits / 8 * Z.min L (m / (bits / 8)) /\ bits / 8 * Z.min L (m / (bits / 8)) <= m.
Proof.
  intros [-> | ->] M L0; unfold fit.
  - change (width 8) with 1. change (8 / 8) with 1. rewrite Z.mod_1_r, Z.div_1_r. lia.
  - change (width 16) with 2. change (16 / 8) with 2. pose proof (Z.div_mod m 2 ltac:(lia)). pose proof (Z.mod_pos_bound m 2 ltac:(lia)).
    destruct (Z.le_gt_cases m (2 * L)) as [X|X].
    + rewrite (Z.min_l m), Z.min_r by lia. lia.
    + rewrite (Z.min_r m), Z.min_l by lia. rewrite (Z.mul_comm 2 L), Z.mod_mul by lia. lia.
Qed.

Lemma reads_short n pre ch rate bits riff fs m x :
  let D := Z.of_nat (length (encode bits fs)) in
  let k := Z.to_nat (Z.min (Z.of_nat (length fs)) (Z.of_nat m / (bits / 8))) in
  (length (pre ++ wav_header ch rate bits riff D ++ encode bits fs) < n)%nat ->
  1 <= ch <= 65535 -> 0 < rate <= 2147483647 -> bits = 8 \/ bits = 16 -> Forall frame_ok fs ->
  0 < D < 2147483648 -> Z.of_nat (length fs) mod ch = 0 ->
  exists rest, reads n false (pre ++ wav_header ch rate bits riff D ++ firstn m (encode bits fs)) (Z.of_nat (length pre)) x =
    Ok (0, (ch, rate, Z.of_nat (length fs) / ch), map (quantised bits) (firstn k fs) ++ rest) /\
    length rest = (length fs - k)%nat /\ (bits = 16 -> rest = repeat 0 (length fs - k)).
Proof.
  cbv zeta. set (D := Z.of_nat (length (encode bits fs))). set (k := Z.to_nat (Z.min (Z.of_nat (length fs)) (Z.of_nat m / (bits / 8)))). intros N C R B F DD M.
  unfold reads, opened, BKWaveFileReaderReadHeader. cbn [rd_rate]. change (0 =? 0) with true. cbn iota.
  set (data := firstn m (encode bits fs)) in *. set (bytes := pre ++ wav_header ch rate bits riff D ++ data) in *.
  pose proof (read_header_chunks n pre ch rate bits riff D [] data 0 false true C R B) as RH.
  specialize (RH ltac:(lia) (Forall_nil _) (Forall_nil _) ltac:(cbn [length]; lia) bytes eq_refl). cbv zeta in RH.
  assert (DB : data_bytes D data = D) by (unfold data_bytes; destruct (D =? 0) eqn:E; [lia|reflexivity]).
  rewrite DB, <- header_chunks, header_length in RH. 
  pose proof (frames_count ch bits fs ltac:(lia) B) as FC. cbv zeta in FC. fold D in FC. specialize (FC ltac:(lia)). rewrite FC in RH.
  rewrite RH. clear RH. cbn [bind]. change (0 =? 0) with true. cbn [rd_channels rd_rate rd_frames negb]. cbn iota.
  assert (CN : ch * (Z.of_nat (length fs) / ch) = Z.of_nat (length fs)) by (apply Z_div_exact_full_2 in M; lia).
  rewrite CN, Nat2Z.id.
  assert (WB : width bits = bits / 8) by (destruct B as [-> | ->]; reflexivity).
  assert (W12 : 1 <= bits / 8 <= 2) by (destruct B as [-> | ->]; split; discriminate).
  assert (DE : D = bits / 8 * Z.of_nat (length fs)) by (apply encode_length; exact B).
  destruct (read_frames_spec n bytes (Z.of_nat (length pre + 44)) 0 false true rate ch bits (Z.of_nat (length fs) / ch) D (repeat x (length fs))) as (r' & tail & E & L1 & L2 & L3 & _).
  - lia.
  - split; [lia|]. rewrite !app_length in N. unfold D. lia.
  - rewrite repeat_length, WB. lia.
  - cbv zeta in E, L1, L2, L3. rewrite Nat2Z.id in E, L1, L2, L3.
    assert (AV : skipn (length pre + 44) bytes = data).
    { unfold bytes. rewrite app_assoc, <- (header_length ch rate bits riff D), <- app_length. apply skipn_exact. }
    rewrite AV in E, L1, L2, L3.
    assert (LD : Z.of_nat (length data) = Z.min (Z.of_nat m) D) by (unfold data; rewrite firstn_length; unfold D; lia).
    assert (FM : fit bits (Z.min D (Z.of_nat (length data))) = bits / 8 * Z.of_nat k).
    { rewrite LD, DE. unfold k. rewrite Z2Nat.id by (apply Z.min_glb; [lia|apply Z.div_pos; lia]). apply fit_short; [exact B|lia|lia]. }
    rewrite FM in E, L1, L2, L3.
    assert (KL : (k <= length fs)%nat) by (unfold k; lia).
    assert (GOT : firstn (Z.to_nat (bits / 8 * Z.of_nat k)) data = encode bits (firstn k fs)).
    { rewrite encode_firstn by exact B. unfold data. rewrite firstn_firstn. f_equal.
      assert (bits / 8 * Z.of_nat k <= Z.of_nat m).
      { unfold k. rewrite Z2Nat.id by (apply Z.min_glb; [lia|apply Z.div_pos; lia]). apply fit_short; [exact B|lia|lia]. }
      assert (Z.of_nat (Z.to_nat (bits / 8) * k) = bits / 8 * Z.of_nat k) by lia. lia. }
    rewrite GOT in E, L1, L2. rewrite (decode_encode bits (firstn k fs) B (Forall_firstn _ _ _ F)) in E, L1.
    rewrite E. cbn [bind]. exists tail. split; [reflexivity|]. rewrite app_length, map_length, repeat_length, firstn_length in L1.
    split; [lia|]. intros B16. assert (K2 : bits / 8 = 2) by (rewrite B16; reflexivity). rewrite DE, K2 in L3.
    replace (2 * Z.of_nat (length fs) - 2 * Z.of_nat k) with (Z.of_nat (length fs - k) * 2) in L3 by lia. rewrite Z.div_mul in L3 by lia. rewrite Nat2Z.id in L3.
    rewrite firstn_all2 in L3 by lia. exact L3.
Qed.

Lemma init_ready room f ch rate bits w : writable f -> format_ok ch rate bits -> f_pos f + 44 <= Z.of_nat room -> started (f_bytes f) (f_mode f) ch rate bits w ->
  ready room w /\ wcut room w = w.
Proof.
  intros W OK R S. rewrite S. destruct W as (_ & _ & _ & P). unfold fsize in P. split.
  - eexists. cbn [wr_file wr_offset wr_header]. split; [reflexivity|]. split; [split; [reflexivity|unfold fsize; cbn [f_pos f_bytes]; lia]|]. split; [lia|]. split; [lia|reflexivity].
  - unfold wcut. cbn [wr_file wr_offset wr_rate wr_channels wr_bits wr_fileSize wr_dataSize wr_reverse wr_header wr_terminated option_map]. unfold cut. cbn [f_bytes f_pos f_mode f_append f_seekable].
    rewrite firstn_all2 by lia. rewrite Z.min_l by lia. reflexivity.
Qed.

Lemma writes_cut room f ch rate bits ops : writable f -> format_ok ch rate bits -> history_ok bits ops -> f_pos f + 44 <= Z.of_nat room ->
  exists f', writes false f ch rate bits ops = Ok f' /\ writes_on room true false f ch rate bits ops = Ok (repeat 0 (S (length ops)), cut room f').
Proof.
  intros W OK H R. destruct (init_started f ch rate bits W OK) as (w & E & S). destruct (init_ready room f ch rate bits w W OK R S) as [RD WC].
  destruct (history_dispose _ _ _ _ _ _ _ OK S H) as (w' & f' & E1 & E2 & _). exists f'. unfold writes, writes_on. rewrite E, E1. cbn [bind]. split; [exact E2|].
  destruct (runs_cut0 room false ops w w' bits RD H E1) as (X & R' & H'). rewrite WC in X. rewrite X. cbn [bind].
  assert (D : dispose_on room true false (wcut room w') = Ok (cut room f')).
  { unfold dispose_on. unfold BKWaveFileWriterDispose in E2. wcuts room w'. destruct (wr_terminated w') eqn:T; cbn [bind] in *.
    - unfold the_file in E2. destruct (wr_file w') as [g|] eqn:WF; [|discriminate]. assert (g = f') as -> by congruence. unfold the_file, wcut. cbn [wr_file]. rewrite WF. reflexivity.
    - destruct (BKWaveFileWriterTerminate false w') as [w2|] eqn:T2; cbn [bind] in E2; [|discriminate].
      destruct (terminate_cut room false w' w2 R' H' T2) as (Y & _ & _). rewrite Y. cbn [bind].
      unfold the_file in E2. destruct (wr_file w2) as [g|] eqn:WF; [|discriminate]. assert (g = f') as -> by congruence. unfold the_file, wcut. cbn [wr_file]. rewrite WF. reflexivity. }
  rewrite D. cbn [bind]. reflexivity.
Qed.

(** * C110: recording on a full disk *)

(** If the size fields can be written, every call returns 0 and a reader finds the announced
    number of frames: those for which there was room, then with 16 bits silence. *)
Theorem C110_full_disk_partial room f ch rate bits ops x : writable f -> format_ok ch rate bits -> history_ok bits ops -> f_pos f + 44 <= Z.of_nat room ->
  let fs := appended ops in
  let k := Z.to_nat (Z.min (Z.of_nat (length fs)) ((Z.of_nat room - f_pos f - 44) / (bits / 8))) in
  bits / 8 * Z.of_nat (length fs) < 2147483648 -> Z.of_nat (length fs) mod ch = 0 ->
  exists f', writes_on room true false f ch rate bits ops = Ok (repeat 0 (S (length ops)), f') /\
    forall n, (length (f_bytes f) + 44 + Z.to_nat (bits / 8) * length fs < n)%nat ->
      exists rest, reads n false (f_bytes f') (f_pos f) x = Ok (0, (ch, rate, Z.of_nat (length fs) / ch), map (quantised bits) (firstn k fs) ++ rest) /\
        length rest = (length fs - k)%nat /\ (bits = 16 -> rest = repeat 0 (length fs - k)).
Proof.
  intros W OK H R. cbv zeta. intros L M. destruct (writes_cut room f ch rate bits ops W OK H R) as (g & E & E'). exists (cut room g). split; [exact E'|].
  destruct (written f ch rate bits ops W OK H) as (g' & EE & B). assert (g' = g) as -> by congruence. clear EE E'. cbn [cut f_bytes].
  destruct (format_bounds _ _ _ OK) as (C & RR & BB). pose proof W as (_ & _ & _ & P). unfold fsize in P. rewrite B, P. set (fs := appended ops) in *.
  set (pre := f_bytes f) in *. intros n N.
  pose proof (encode_length bits fs BB) as EL. set (D := Z.of_nat (length (encode bits fs))) in *.
  assert (W12 : 1 <= bits / 8 <= 2) by (destruct BB as [-> | ->]; split; discriminate).
  assert (LL : length (pre ++ wav_header ch rate bits (Z.of_nat (length pre) + 36 + D) D) = (length pre + 44)%nat) by (rewrite app_length, header_length; reflexivity).
  assert (CUT : firstn room (pre ++ wav_header ch rate bits (Z.of_nat (length pre) + 36 + D) D ++ encode bits fs) =
     pre ++ wav_header ch rate bits (Z.of_nat (length pre) + 36 + D) D ++ firstn (room - (length pre + 44)) (encode bits fs)).
  { rewrite app_assoc, firstn_app, LL, firstn_all2 by lia. rewrite <- app_assoc. reflexivity. }
  rewrite CUT. destruct (Z.eq_dec D 0) as [D0|D0].
  - assert (F0 : fs = []) by (destruct fs; [reflexivity|cbn [length] in EL; lia]). rewrite F0 in *.
    assert (EN : encode bits [] = []) by (destruct BB as [-> | ->]; reflexivity).
    exists []. cbn [length]. split; [|split; [lia|intros _; cbn; reflexivity]].
    rewrite EN, firstn_nil. rewrite D0.
    pose proof (reads_bytes n pre ch rate bits (Z.of_nat (length pre) + 36 + 0) 0 [] [] x) as RB. rewrite EN in RB. cbn [app length map] in RB. rewrite firstn_nil. cbn [map app]. rewrite app_nil_r in *.
    apply RB; [rewrite app_length, header_length; cbn [length] in N; lia|exact C|exact RR|exact BB|constructor|right; split; reflexivity|reflexivity|exact M].
  - destruct (reads_short n pre ch rate bits (Z.of_nat (length pre) + 36 + D) fs (room - (length pre + 44)) x) as (rest & X & Y).
    + fold D. rewrite app_assoc, app_length, LL. assert (Z.of_nat (Z.to_nat (bits / 8) * length fs) = bits / 8 * Z.of_nat (length fs)) by lia. unfold D in EL. lia.
    + exact C.
    + exact RR.
    + exact BB.
    + exact (appended_ok bits ops (proj1 H)).
    + unfold D in *. lia.
    + exact M.
    + replace (Z.of_nat (room - (length pre + 44))) with (Z.of_nat room - Z.of_nat (length pre) - 44) in X, Y by lia. exists rest. split; [exact X|exact Y].
Qed.

(** If the disk gets full before the file is terminated for the first time and the size
    fields cannot be written, a reader finds the frames for which there was room, provided
    the last one is complete. *)
Theorem C110_sizes_lost_partial room f ch rate bits ops k x : writable f -> format_ok ch rate bits -> history_ok bits ops -> finished [] None ops = None ->
  let fs := appended ops in
  (k <= length fs)%nat -> Z.of_nat room = f_pos f + 44 + bits / 8 * Z.of_nat k -> bits / 8 * Z.of_nat k < 2147483648 -> Z.of_nat k mod ch = 0 ->
  exists f', writes_on room false false f ch rate bits ops = Ok (repeat 0 (S (length ops)), f') /\
    forall n, (length (f_bytes f') < n)%nat ->
      reads n false (f_bytes f') (f_pos f) x = Ok (0, (ch, rate, Z.of_nat k / ch), map (quantised bits) (firstn k fs)).
Proof.
  intros W OK H FI. cbv zeta. intros KL R L M. destruct (init_started f ch rate bits W OK) as (w & E & S).
  destruct (format_bounds _ _ _ OK) as (C & RR & BB). assert (W12 : 1 <= bits / 8 <= 2) by (destruct BB as [-> | ->]; split; discriminate).
  destruct (init_ready room f ch rate bits w W OK ltac:(lia) S) as [RD WC].
  destruct (history_run _ _ _ _ _ _ _ OK S H) as (w' & E1 & WR & T). rewrite FI in T. destruct (wr_terminated w') eqn:TT; [specialize (T eq_refl); discriminate|]. clear T.
  destruct (runs_cut0 room false ops w w' bits RD H E1) as (X & R' & H'). rewrite WC in X.
  assert (SAME : forall ops w, finished [] None ops = None -> wruns_on room false false w ops = wruns_on room true false w ops).
  { clear. intros ops. assert (G : forall ops b w, finished b None ops = None -> wruns_on room false false w ops = wruns_on room true false w ops).
    { clear ops. induction ops as [|[fs|] ops IH]; intros b w F; cbn [finished wruns_on wstep_on] in *; [reflexivity| |].
      - destruct (append_on room false w fs) as [[r w1]|]; [|reflexivity]. cbn [bind]. rewrite (IH _ _ F). reflexivity.
      - exfalso. assert (N : forall ops b d, finished b (Some d) ops <> None) by (clear; induction ops as [|[fs|] ops IH]; intros b d; cbn [finished]; [discriminate|apply IH|apply IH]). exact (N _ _ _ F). }
    intros w. apply G. }
  unfold writes_on. rewrite E. rewrite (SAME ops w FI), X. cbn [bind]. clear X SAME.
  destruct WR as (WF & _). rewrite FI in WF. cbn [sizes fst snd] in WF. cbv zeta in WF.
  set (bytes := f_bytes f ++ wav_header ch rate bits 0 0 ++ encode bits (appended ops)) in *. set (g := mk_file bytes (Z.of_nat (length bytes)) (f_mode f) false true) in *.
  pose proof W as (_ & _ & _ & P). unfold fsize in P.
  assert (FULL : (room <= length bytes)%nat).
  { unfold bytes. rewrite !app_length, header_length. pose proof (encode_length bits (appended ops) BB). nia. }
  exists (cut room g). assert (D : dispose_on room false false (wcut room w') = Ok (cut room g)).
  { unfold dispose_on. wcuts room w'. rewrite TT. unfold terminate_on, the_file. unfold wcut at 1. cbn [wr_file]. rewrite WF. cbn [option_map bind]. cbv zeta.
    assert (FS : forall p, fseek_on room false (cut room g) p = cut room g).
    { intros p. unfold fseek_on. cbn [orb cut f_bytes]. rewrite firstn_length. unfold g at 1. cbn [f_bytes]. replace (Nat.min room (length bytes)) with room by lia. rewrite Nat.ltb_irrefl. reflexivity. }
    assert (FW : forall b, fwrite_on room (cut room g) b = cut room g).
    { intros b. unfold fwrite_on, start. cbn [cut f_append f_pos g]. cbn iota. replace (room - Z.to_nat (Z.min (Z.of_nat (length bytes)) (Z.of_nat room)))%nat with 0%nat by lia. reflexivity. }
    rewrite FS, FW, FS, FW, FS. reflexivity. }
  rewrite D. cbn [bind]. split; [reflexivity|]. cbn [cut g f_bytes]. rewrite P.
  assert (CUT : firstn room bytes = f_bytes f ++ wav_header ch rate bits 0 0 ++ encode bits (firstn k (appended ops)) ++ []).
  { unfold bytes. rewrite app_nil_r. rewrite app_assoc, firstn_app.
    assert (LL : length (f_bytes f ++ wav_header ch rate bits 0 0) = (length (f_bytes f) + 44)%nat) by (rewrite app_length, header_length; reflexivity).
    rewrite LL, firstn_all2 by lia. rewrite <- app_assoc. f_equal. f_equal. rewrite encode_firstn by exact BB. f_equal.
    assert (Z.of_nat (Z.to_nat (bits / 8) * k) = bits / 8 * Z.of_nat k) by lia. lia. }
  rewrite CUT. assert (LK : length (firstn k (appended ops)) = k) by (rewrite firstn_length; lia).
  intros n N. assert (KE : Z.of_nat k / ch = Z.of_nat (length (firstn k (appended ops))) / ch) by (rewrite LK; reflexivity). rewrite KE. apply reads_bytes; [exact N|exact C|exact RR|exact BB| |right; split; reflexivity| |].
  - apply Forall_firstn. exact (appended_ok bits ops (proj1 H)).
  - rewrite encode_length by exact BB. rewrite LK. exact L.
  - rewrite LK. exact M.
Qed.

(** A file with less than 44 bytes is never accepted: if the header does not fit, the client
    at least cannot read the file. *)
Theorem C110_short_rejected n big bytes pos : 0 <= pos -> Z.of_nat (length bytes) < pos + 44 -> (0 < n)%nat ->
  exists r, BKWaveFileReaderReadHeader n big (opened bytes pos) = Ok (r, -1, (0, 0, 0)).
Proof.
  intros P L N. unfold BKWaveFileReaderReadHeader, opened. cbn [rd_rate]. change (0 =? 0) with true. cbn iota. unfold read_header. cbn [rd_file].
  assert (FR : forall f k, 0 <= f_pos f -> 0 <= k -> exists bs g, fread f k = (bs, g) /\ f_bytes g = f_bytes f /\ f_pos g = f_pos f + Z.of_nat (length bs) /\ Z.of_nat (length bs) = Z.min k (Z.max 0 (fsize f - f_pos f))).
  { intros f k A B. unfold fread. eexists. eexists. split; [reflexivity|]. unfold fseek, fsize. cbn [f_bytes f_pos]. split; [reflexivity|]. split; [reflexivity|]. rewrite firstn_length, skipn_length. lia. }
  destruct (FR (mk_file bytes pos 0 false true) 12 P ltac:(lia)) as (h & f1 & E1 & B1 & P1 & L1). rewrite E1. unfold fsize in L1. cbn [f_bytes f_pos] in *.
  destruct (Z.of_nat (length h) <? 12) eqn:X1; [eexists; reflexivity|].
  destruct (same_bytes (field 0 4 h) RIFF); [|eexists; reflexivity]. destruct (same_bytes (field 8 4 h) WAVE); [|eexists; reflexivity]. cbn [negb].
  destruct (FR f1 24 ltac:(lia) ltac:(lia)) as (fm & f2 & E2 & B2 & P2 & L2). rewrite E2. unfold fsize in L2. rewrite B1 in *.
  destruct (Z.of_nat (length fm) <? 24) eqn:X2; [eexists; reflexivity|].
  destruct (same_bytes (field 0 4 fm) FMT); [|eexists; reflexivity]. cbn [negb].
  destruct (number big 8 2 fm =? 1); [|eexists; reflexivity]. cbn [negb]. cbv zeta.
  destruct (negb (number big 22 2 fm =? 8) && negb (number big 22 2 fm =? 16)); [eexists; reflexivity|].
  destruct n as [|n]; [lia|]. cbn [find_data].
  destruct (FR f2 8 ltac:(lia) ltac:(lia)) as (d & f3 & E3 & B3 & P3 & L3). rewrite E3. unfold fsize in L3. rewrite B2 in *.
  destruct (Z.of_nat (length d) <? 8) eqn:X3; [eexists; reflexivity|]. lia.
Qed.

Definition two_pieces : list wop := [WAppend [1; -2; 3; -4]; WAppend [5; -6]].
Example C110_example : writable new_file /\ format_ok 2 44100 16 /\ history_ok 16 two_pieces /\ finished [] None two_pieces = None /\
  (* room for three samples and a byte *)
  (let* (rs, f) := writes_on 51 true false new_file 2 44100 16 two_pieces in let* r := reads 99 false (f_bytes f) 0 7 in Ok (rs, r)) =
    Ok ([0; 0; 0], (0, (2, 44100, 3), [1; -2; 3; 0; 0; 0])) /\
  (* room for four samples, the sizes cannot be written *)
  (let* (rs, f) := writes_on 52 false false new_file 2 44100 16 two_pieces in let* r := reads 99 false (f_bytes f) 0 7 in Ok (rs, r)) =
    Ok ([0; 0; 0], (0, (2, 44100, 2), [1; -2; 3; -4])).
Proof.
  split; [unfold writable; cbn; auto|]. split; [unfold format_ok; cbn; lia|]. split; [split; [|exact I]; repeat constructor; try (unfold frame_ok; lia); cbn; lia|].
  split; [reflexivity|]. split; vm_compute; reflexivity.
Qed.

(** The file which is left. *)
Definition left_on (room : nat) (ok : bool) (ch rate bits : Z) (ops : list wop) : file :=
  match writes_on room ok false new_file ch rate bits ops with Ok (_, f) => f | Err _ => new_file end.

(** Nothing tells the client that frames got lost: all values returned are 0. *)
Theorem C110_reported_refuted : exists room f ch rate ops f' frames, writable f /\ format_ok ch rate 16 /\ history_ok 16 ops /\
  writes_on room true false f ch rate 16 ops = Ok ([0; 0; 0], f') /\
  reads 99 false (f_bytes f') (f_pos f) 7 = Ok (0, (ch, rate, Z.of_nat (length (appended ops)) / ch), frames) /\ frames <> appended ops.
Proof.
  exists 48%nat, new_file, 2, 44100, two_pieces, (left_on 48 true 2 44100 16 two_pieces), [1; -2; 0; 0; 0; 0]. destruct C110_example as (W & F & H & _).
  split; [exact W|]. split; [exact F|]. split; [exact H|]. split; [vm_compute; reflexivity|]. split; [vm_compute; reflexivity|discriminate].
Qed.

Definition four : list wop := [WAppend [256; 512; 768; 1024]].
(** With 8 bits the frames which are missing are not silent. *)
Theorem C110_silence_refuted : exists room f ch rate ops f', writable f /\ format_ok ch rate 8 /\ history_ok 8 ops /\
  writes_on room true false f ch rate 8 ops = Ok ([0; 0], f') /\
  reads 99 false (f_bytes f') (f_pos f) 7 = Ok (0, (ch, rate, 4), [256; 0; 0; 7]).
Proof.
  exists 45%nat, new_file, 1, 44100, four, (left_on 45 true 1 44100 8 four). split; [unfold writable; cbn; auto|]. split; [unfold format_ok; cbn; lia|].
  split; [|split; vm_compute; reflexivity]. split; [|exact I]. apply Forall_cons; [|apply Forall_nil]. split; [repeat (apply Forall_cons; [unfold frame_ok; lia|]); apply Forall_nil|cbn; lia].
Qed.

(** If the size fields cannot be written and the last frame is not complete, reading the file
    stores samples behind the array of the announced size. *)
Theorem C110_overrun_refuted : exists room f ch rate ops f', writable f /\ format_ok ch rate 16 /\ history_ok 16 ops /\
  writes_on room false false f ch rate 16 ops = Ok ([0; 0; 0], f') /\
  (exists r, BKWaveFileReaderReadHeader 99 false (opened (f_bytes f') (f_pos f)) = Ok (r, 0, (2, 44100, 1))) /\
  reads 99 false (f_bytes f') (f_pos f) 7 = Err EBounds.
Proof.
  exists 50%nat, new_file, 2, 44100, two_pieces, (left_on 50 false 2 44100 16 two_pieces). destruct C110_example as (W & F & H & _).
  split; [exact W|]. split; [exact F|]. split; [exact H|]. split; [vm_compute; reflexivity|]. split; [eexists|]; vm_compute; reflexivity.
Qed.

Print Assumptions C110_full_disk_partial.
Print Assumptions C110_sizes_lost_partial.
Print Assumptions C110_short_rejected.
Print Assumptions C110_reported_refuted.
Print Assumptions C110_silence_refuted.
Print Assumptions C110_overrun_refuted.
