(** What the reader reads. *)
From Verif Require Import CInt CIntFacts WaveModel WaveSpec WaveProofs.
Ltac Zify.zify_post_hook ::= idtac.

(** ** Header *)

Lemma same_bytes_eq : forall a b, same_bytes a b = true <-> a = b.
Proof.
  induction a as [|x a IH]; intros [|y b]; cbn [same_bytes]; try (split; congruence).
  rewrite andb_true_iff, IH. rewrite Z.eqb_eq. split; [intros [-> ->]; reflexivity|]. intros E. split; congruence.
Qed.
Lemma same_bytes_refl a : same_bytes a a = true. Proof. apply same_bytes_eq. reflexivity. Qed.
Lemma same_bytes_ne a b : a <> b -> same_bytes a b = false.
Proof. intros N. destruct (same_bytes a b) eqn:E; [|reflexivity]. apply same_bytes_eq in E. contradiction. Qed.

Lemma fread_at bytes pos mode ap s n a bs b : bytes = a ++ bs ++ b -> pos = Z.of_nat (length a) -> Z.of_nat (length bs) = n ->
  fread (mk_file bytes pos mode ap s) n = (bs, mk_file bytes (pos + n) mode ap s).
Proof.
  intros -> -> <-. rewrite fread_exact by reflexivity. rewrite app_length, Nat2Z.inj_add. reflexivity.
Qed.

(** Chunks of even size are skipped. *)
Lemma find_data_chunks bytes mode ap s size rest : forall chunks n a pos,
  Forall chunk_ok chunks -> Forall (fun c => Nat.even (length (snd c)) = true) chunks -> (length chunks < n)%nat ->
  bytes = a ++ concat (map chunk_bytes chunks) ++ DATA ++ le32 size ++ rest -> pos = Z.of_nat (length a) ->
  find_data n false (mk_file bytes pos mode ap s) =
    Ok (mk_file bytes (pos + Z.of_nat (length (concat (map chunk_bytes chunks))) + 8) mode ap s, Some (u32 size)).
Proof.
  induction chunks as [|[name body] chunks IH]; intros n a pos C E L B P; (destruct n as [|n]; [cbn in L; lia|]); cbn [find_data map concat length app] in *.
  - rewrite (fread_at _ _ _ _ _ 8 a (DATA ++ le32 size) rest); [|rewrite <- app_assoc; exact B|exact P|reflexivity].
    change (Z.of_nat (length (DATA ++ le32 size)) <? 8) with false. cbn iota.
    change (field 0 4 (DATA ++ le32 size)) with DATA. rewrite same_bytes_refl.
    change (number false 4 4 (DATA ++ le32 size)) with (le_val (le32 size)). rewrite le_val32, Z.add_0_r. reflexivity.
  - pose proof (Forall_inv C) as [LN [NN LB]]. pose proof (Forall_inv E) as EV. cbn [snd] in EV. unfold chunk_bytes at 1 in B.
    rewrite EV, app_nil_r in B. set (h := name ++ le32 (Z.of_nat (length body))) in *.
    assert (HL : length h = 8%nat) by (unfold h; rewrite app_length, LN, len_le32; reflexivity).
    assert (B' : bytes = a ++ h ++ body ++ concat (map chunk_bytes chunks) ++ DATA ++ le32 size ++ rest) by (rewrite B; unfold h; rewrite <- !app_assoc; reflexivity).
    rewrite (fread_at _ _ _ _ _ 8 a h _ B' P) by (rewrite HL; reflexivity). rewrite HL. change (Z.of_nat 8 <? 8) with false. cbn iota.
    assert (F1 : field 0 4 h = name) by (unfold field, h; cbn [skipn]; rewrite <- LN; apply firstn_exact).
    assert (F2 : number false 4 4 h = Z.of_nat (length body)).
    { unfold number, load, field. assert (skipn 4 h = le32 (Z.of_nat (length body))) as -> by (unfold h; rewrite <- LN; apply skipn_exact). change (firstn 4 (le32 (Z.of_nat (length body)))) with (le32 (Z.of_nat (length body))).
      rewrite le_val32. unfold u32. apply Z.mod_small. lia. }
    rewrite F1, F2, (same_bytes_ne _ _ NN). unfold fseek. cbn [f_bytes f_pos f_mode f_append f_seekable].
    rewrite (IH n (a ++ h ++ body)); [|exact (Forall_inv_tail C)|exact (Forall_inv_tail E)|lia|rewrite B', <- !app_assoc; reflexivity|].
    + unfold chunk_bytes at 2. rewrite EV, app_nil_r. f_equal. f_equal. f_equal. rewrite !app_length, LN, len_le32. lia.
    + rewrite !app_length, HL. lia.
Qed.

(** A format chunk of 16 bytes. *)
Definition fmt_chunk (channels rate bits : Z) : list Z :=
  FMT ++ le32 16 ++ le16 1 ++ le16 channels ++ le32 rate ++ le32 (rate * channels * (bits / 8)) ++ le16 (channels * (bits / 8)) ++ le16 bits.

Definition data_bytes (size : Z) (rest : list Z) : Z := if size =? 0 then Z.of_nat (length rest) else size.

Lemma read_header_chunks n pre ch rate bits riff data chunks rest mode ap s :
  1 <= ch <= 65535 -> 0 < rate <= 2147483647 -> bits = 8 \/ bits = 16 -> 0 <= data < 4294967296 ->
  Forall chunk_ok chunks -> Forall (fun c => Nat.even (length (snd c)) = true) chunks -> (length chunks < n)%nat ->
  forall bytes, bytes = pre ++ wav_chunks ch rate bits riff data chunks ++ rest ->
  let d := data_bytes data rest in
  read_header n false (mk_reader (mk_file bytes (Z.of_nat (length pre)) mode ap s) 0 0 0 0 0) =
  Ok (mk_reader (mk_file bytes (Z.of_nat (length pre + length (wav_chunks ch rate bits riff data chunks))) mode ap s) rate ch bits
        (s32 (Z.quot (Z.quot (s32 d) ch) (bits / 8))) d, 0).
Proof.
  intros C R B D CO CE L bytes E d. unfold read_header. cbn [rd_file].
  set (h1 := RIFF ++ le32 riff ++ WAVE). set (h2 := fmt_chunk ch rate bits). set (cs := concat (map chunk_bytes chunks)).
  assert (E' : bytes = pre ++ h1 ++ h2 ++ cs ++ DATA ++ le32 data ++ rest).
  { rewrite E. unfold wav_chunks, h1, h2, fmt_chunk. rewrite <- !app_assoc. reflexivity. }
  rewrite (fread_at bytes _ mode ap s 12 pre h1 _ E' eq_refl) by reflexivity.
  change (Z.of_nat (length h1) <? 12) with false. cbn iota.
  change (field 0 4 h1) with RIFF. change (field 8 4 h1) with WAVE. rewrite !same_bytes_refl. cbn [negb].
  rewrite (fread_at bytes _ mode ap s 24 (pre ++ h1) h2 (cs ++ DATA ++ le32 data ++ rest)); [|rewrite E', <- !app_assoc; reflexivity|rewrite app_length, Nat2Z.inj_add; reflexivity|reflexivity].
  change (Z.of_nat (length h2) <? 24) with false. cbn iota. change (field 0 4 h2) with FMT. rewrite same_bytes_refl. cbn [negb].
  change (number false 8 2 h2) with (le_val (le16 1)). change (le_val (le16 1) =? 1) with true. cbn [negb].
  change (number false 22 2 h2) with (le_val (le16 bits)). change (number false 10 2 h2) with (le_val (le16 ch)). change (number false 12 4 h2) with (le_val (le32 rate)).
  assert (B1 : le_val (le16 bits) = bits) by (rewrite le_val16; destruct B as [-> | ->]; reflexivity).
  assert (C1 : le_val (le16 ch) = ch) by (rewrite le_val16; unfold u16; apply Z.mod_small; lia).
  assert (R1 : s32 (le_val (le32 rate)) = rate). { rewrite le_val32. unfold u32. rewrite Z.mod_small by lia. apply s32_id. lia. }
  rewrite B1, C1, R1. assert (B2 : negb (bits =? 8) && negb (bits =? 16) = false) by (destruct B as [-> | ->]; reflexivity). rewrite B2.
  rewrite (find_data_chunks bytes mode ap s data rest chunks n (pre ++ h1 ++ h2)); [|exact CO|exact CE|exact L|rewrite E', <- !app_assoc; reflexivity|].
  2:{ rewrite !app_length. change (length h1) with 12%nat. change (length h2) with 24%nat. lia. }
  cbn [bind]. unfold u32. rewrite (Z.mod_small data) by lia.
  assert (Z.eqb ch 0 = false) as -> by lia. fold cs. unfold fsize. cbn [f_bytes f_pos].
  assert (LW : length (wav_chunks ch rate bits riff data chunks) = (44 + length cs)%nat).
  { unfold wav_chunks. fold cs. rewrite !app_length. cbn [length RIFF WAVE FMT DATA le32 le16]. lia. }
  assert (LB : Z.of_nat (length bytes) = Z.of_nat (length pre) + 44 + Z.of_nat (length cs) + Z.of_nat (length rest)) by (rewrite E, !app_length, LW; lia).
  assert (DD : (if data =? 0 then Z.of_nat (length bytes) - (Z.of_nat (length pre) + 12 + 24 + Z.of_nat (length cs) + 8) else data) = d).
  { unfold d, data_bytes. destruct (data =? 0); [lia|reflexivity]. }
  rewrite DD. f_equal. f_equal. rewrite LW. f_equal; [|destruct B as [-> | ->]; reflexivity].
  f_equal. lia.
Qed.

Lemma header_chunks ch rate bits riff data : wav_header ch rate bits riff data = wav_chunks ch rate bits riff data [].
Proof. reflexivity. Qed.

(** ** Frames *)

Definition decode (bits : Z) (bs : list Z) : list Z := if bits =? 8 then frames8 bs else frames16 false bs.
(** Bytes of a frame. *)
Definition width (bits : Z) : Z := if bits =? 8 then 1 else 2.
Definition fit (bits x : Z) : Z := x - x mod width bits.

Lemma width_cases bits : bits =? 8 = true /\ width bits = 1 \/ bits =? 8 = false /\ width bits = 2.
Proof. unfold width. destruct (bits =? 8); [left|right]; split; reflexivity. Qed.

Lemma mask_fit bits x : 0 <= x <= 1024 -> Z.land x (if bits =? 8 then 4294967295 else 4294967294) = fit bits x.
Proof.
  intros X. unfold fit, width.
  assert (H : forall (k : nat), (k <= 1024)%nat -> Z.land (Z.of_nat k) 4294967295 = Z.of_nat k - Z.of_nat k mod 1 /\ Z.land (Z.of_nat k) 4294967294 = Z.of_nat k - Z.of_nat k mod 2).
  { assert (A : forallb (fun k => (Z.land (Z.of_nat k) 4294967295 =? Z.of_nat k - Z.of_nat k mod 1) && (Z.land (Z.of_nat k) 4294967294 =? Z.of_nat k - Z.of_nat k mod 2)) (seq 0 1025) = true) by (vm_compute; reflexivity).
    intros k K. rewrite forallb_forall in A. specialize (A k ltac:(apply in_seq; lia)). lia. }
  destruct (H (Z.to_nat x) ltac:(lia)) as [H1 H2]. rewrite Z2Nat.id in H1, H2 by lia. destruct (bits =? 8); assumption.
Qed.

Lemma frames16_app : forall n a b, length a = (n + n)%nat -> frames16 false (a ++ b) = frames16 false a ++ frames16 false b.
Proof.
  induction n as [|n IH]; intros a b L.
  - destruct a; [reflexivity|discriminate].
  - destruct a as [|x [|y a]]; [cbn in L; lia|cbn in L; lia|]. cbn [app frames16]. rewrite IH; [reflexivity|cbn in L; lia].
Qed.
Lemma decode_app bits a b : Z.of_nat (length a) mod width bits = 0 -> decode bits (a ++ b) = decode bits a ++ decode bits b.
Proof.
  unfold decode, width, frames8. destruct (bits =? 8); intros M; [apply map_app|].
  apply (frames16_app (length a / 2)). apply Nat2Z.inj. rewrite Nat2Z.inj_add, Nat2Z.inj_div. change (Z.of_nat 2) with 2. Z.to_euclidean_division_equations; lia.
Qed.
Lemma frames16_length : forall n a, length a = (n + n)%nat -> length (frames16 false a) = n.
Proof.
  induction n as [|n IH]; intros a L.
  - destruct a; [reflexivity|discriminate].
  - destruct a as [|x [|y a]]; [cbn in L; lia|cbn in L; lia|]. cbn [frames16 length]. rewrite IH; [reflexivity|cbn in L; lia].
Qed.
Lemma decode_length bits a : Z.of_nat (length a) mod width bits = 0 -> width bits * Z.of_nat (length (decode bits a)) = Z.of_nat (length a).
Proof.
  unfold decode, width, frames8. destruct (bits =? 8); intros M; [rewrite map_length; lia|].
  rewrite (frames16_length (length a / 2)).
  - rewrite Nat2Z.inj_div. change (Z.of_nat 2) with 2. Z.to_euclidean_division_equations; lia.
  - apply Nat2Z.inj. rewrite Nat2Z.inj_add, Nat2Z.inj_div. change (Z.of_nat 2) with 2. Z.to_euclidean_division_equations; lia.
Qed.

Lemma aset_mid {A} (a : list A) x y b : aset (a ++ x :: b) (Z.of_nat (length a)) y = Ok (a ++ y :: b).
Proof.
  rewrite aset_ok by (rewrite app_length; cbn [length]; lia). rewrite Nat2Z.id. f_equal.
  induction a as [|z a IH]; [reflexivity|]. cbn [app length upd]. rewrite IH. reflexivity.
Qed.

Lemma store_mid : forall fs a old b i, length old = length fs -> i = Z.of_nat (length a) -> store (a ++ old ++ b) i fs = Ok (a ++ fs ++ b).
Proof.
  induction fs as [|v fs IH]; intros a old b i L ->.
  - destruct old; [reflexivity|discriminate].
  - destruct old as [|o old]; [discriminate|]. cbn [store app]. rewrite aset_mid. cbn [bind].
    replace (a ++ v :: old ++ b) with ((a ++ [v]) ++ old ++ b) by (rewrite <- app_assoc; reflexivity).
    rewrite IH; [rewrite <- app_assoc; reflexivity|cbn in L; lia|rewrite app_length; cbn; lia].
Qed.

Lemma skipn_skipn {A} : forall a b (l : list A), skipn a (skipn b l) = skipn (b + a) l.
Proof. intros a b. induction b as [|b IH]; intros l; [reflexivity|]. destruct l; [cbn; apply skipn_nil|]. cbn [skipn Nat.add]. apply IH. Qed.

Lemma fit_bounds bits x : 0 <= x -> 0 <= fit bits x <= x /\ x < fit bits x + width bits /\ fit bits x mod width bits = 0.
Proof. intros X. unfold fit. destruct (width_cases bits) as [[_ ->]|[_ ->]]; Z.to_euclidean_division_equations; lia. Qed.
Lemma fit_add bits x y : x mod width bits = 0 -> fit bits (x + y) = x + fit bits y.
Proof. unfold fit. destruct (width_cases bits) as [[_ ->]|[_ ->]]; intros; Z.to_euclidean_division_equations; lia. Qed.
Lemma fit_pos bits x : width bits <= x -> width bits <= fit bits x.
Proof. unfold fit. destruct (width_cases bits) as [[_ ->]|[_ ->]]; intros; Z.to_euclidean_division_equations; lia. Qed.
Lemma fit_id bits x : x mod width bits = 0 -> fit bits x = x.
Proof. unfold fit. lia. Qed.

Lemma read_blocks_spec bits : forall n bytes pos mode ap s remaining written done rest i,
  0 <= pos -> 0 <= remaining -> remaining < Z.of_nat n -> i = Z.of_nat (length done) ->
  let avail := skipn (Z.to_nat pos) bytes in
  let m := fit bits (Z.min remaining (Z.of_nat (length avail))) in
  m <= width bits * Z.of_nat (length rest) ->
  exists pos', pos <= pos' /\
    read_blocks n false bits (mk_file bytes pos mode ap s) remaining written (done ++ rest) i =
    Ok (mk_file bytes pos' mode ap s, written + m,
        done ++ decode bits (firstn (Z.to_nat m) avail) ++ skipn (Z.to_nat (m / width bits)) rest, i + m / width bits).
Proof.
  induction n as [|n IH]; intros bytes pos mode ap s remaining written done rest i P R L I; cbv zeta; intros M; [lia|].
  set (avail := skipn (Z.to_nat pos) bytes) in *. set (m := fit bits (Z.min remaining (Z.of_nat (length avail)))) in *.
  assert (W : 1 <= width bits <= 2) by (destruct (width_cases bits) as [[_ ->]|[_ ->]]; lia).
  assert (STOP : m = 0 -> Ok (mk_file bytes pos mode ap s, written, done ++ rest, i) =
     Ok (mk_file bytes pos mode ap s, written + m, done ++ decode bits (firstn (Z.to_nat m) avail) ++ skipn (Z.to_nat (m / width bits)) rest, i + m / width bits)).
  { intros ->. rewrite Z.div_0_l by lia. change (Z.to_nat 0) with 0%nat. cbn [firstn skipn]. rewrite !Z.add_0_r. unfold decode. destruct (bits =? 8); reflexivity. }
  cbn [read_blocks]. destruct (remaining =? 0) eqn:Z0.
  { exists pos. split; [lia|]. apply STOP. unfold m. rewrite Z.min_l by lia. assert (remaining = 0) as -> by lia. unfold fit. rewrite Z.mod_0_l by lia. reflexivity. }
  assert (MR : BKMin remaining 1024 = Z.min remaining 1024) by (unfold BKMin; destruct (remaining <? 1024) eqn:?; lia).
  rewrite MR. rewrite mask_fit by lia. set (req := fit bits (Z.min remaining 1024)).
  destruct (fit_bounds bits (Z.min remaining 1024) ltac:(lia)) as (Q1 & Q2 & Q3). fold req in Q1, Q2, Q3.
  unfold fread. cbn [f_pos f_bytes]. fold avail. set (bs := firstn (Z.to_nat req) avail).
  assert (LB : Z.of_nat (length bs) = Z.min req (Z.of_nat (length avail))) by (unfold bs; rewrite firstn_length; lia).
  rewrite mask_fit by lia. set (rs := fit bits (Z.of_nat (length bs))).
  destruct (fit_bounds bits (Z.of_nat (length bs)) ltac:(lia)) as (S1 & S2 & S3). fold rs in S1, S2, S3.
  unfold fseek. cbn [f_bytes f_mode f_append f_seekable].
  set (pos1 := pos + Z.of_nat (length bs)).
  set (avail1 := skipn (Z.to_nat pos1) bytes).
  assert (AV : avail1 = skipn (length bs) avail).
  { unfold avail1, pos1, avail. rewrite skipn_skipn. f_equal. lia. }
  assert (LA : Z.of_nat (length avail1) = Z.of_nat (length avail) - Z.of_nat (length bs)) by (rewrite AV, skipn_length; lia).
  set (m1 := fit bits (Z.min (remaining - rs) (Z.of_nat (length avail1)))).
  assert (MM : m = rs + m1 /\ (Z.of_nat (length bs) = rs \/ m1 = 0)).
  { destruct (Z_le_gt_dec req (Z.of_nat (length avail))) as [G|G].
    - assert (rs = req) by (unfold rs; rewrite LB, Z.min_l by lia; apply fit_id; exact Q3). split; [|left; lia].
      unfold m, m1. rewrite <- fit_add by (rewrite H; exact Q3). f_equal. lia.
    - assert (length avail1 = 0%nat) as A0 by lia. unfold m1. rewrite A0. rewrite Z.min_r by lia.
      assert (F0 : fit bits 0 = 0) by (apply fit_id; apply Z.mod_0_l; lia). change (Z.of_nat 0) with 0. rewrite F0. split; [|right; reflexivity].
      unfold m, rs. rewrite Z.add_0_r. f_equal. lia. }
  destruct MM as [MM MB].
  destruct (rs =? 0) eqn:R0.
  { exists pos1. split; [lia|]. assert (m = 0).
    { assert (rs = 0) as RZ by lia. destruct (Z_le_gt_dec (Z.of_nat (length avail)) (width bits - 1)) as [G|G].
      - unfold m. destruct (fit_bounds bits (Z.min remaining (Z.of_nat (length avail))) ltac:(lia)) as (F1 & F2 & F3).
        destruct (width_cases bits) as [[_ WW]|[_ WW]]; rewrite WW in *; Z.to_euclidean_division_equations; lia.
      - assert (remaining < width bits).
        { destruct (Z_lt_ge_dec remaining (width bits)) as [Y|Y]; [exact Y|exfalso].
          pose proof (fit_pos bits (Z.min remaining 1024) ltac:(lia)) as U. fold req in U.
          pose proof (fit_pos bits (Z.of_nat (length bs)) ltac:(lia)) as V. fold rs in V. lia. }
        unfold m. destruct (fit_bounds bits (Z.min remaining (Z.of_nat (length avail))) ltac:(lia)) as (F1 & F2 & F3).
        destruct (width_cases bits) as [[_ WW]|[_ WW]]; rewrite WW in *; Z.to_euclidean_division_equations; lia. }
    rewrite H. rewrite Z.div_0_l by lia. change (Z.to_nat 0) with 0%nat. cbn [firstn skipn]. rewrite !Z.add_0_r. unfold decode. destruct (bits =? 8); reflexivity. }
  set (blk := firstn (Z.to_nat rs) bs).
  assert (LK : Z.of_nat (length blk) = rs) by (unfold blk; rewrite firstn_length; lia).
  assert (D : (if bits =? 8 then frames8 blk else frames16 false blk) = decode bits blk) by reflexivity.
  rewrite D. clear D. assert (LD : width bits * Z.of_nat (length (decode bits blk)) = rs) by (rewrite decode_length; rewrite LK; [reflexivity|exact S3]).
  set (k := length (decode bits blk)) in *.
  assert (M10 : 0 <= m1) by (apply fit_bounds; lia).
  assert (KR : (k <= length rest)%nat) by nia.
  assert (ST : store (done ++ rest) i (decode bits blk) = Ok (done ++ decode bits blk ++ skipn k rest)).
  { rewrite <- (firstn_skipn k rest) at 1. apply store_mid; [rewrite firstn_length; fold k; lia|exact I]. }
  rewrite ST. cbn [bind]. fold k.
  destruct (IH bytes pos1 mode ap s (remaining - rs) (written + rs) (done ++ decode bits blk) (skipn k rest) (i + Z.of_nat k)) as (pos2 & P2 & E2).
  - lia.
  - lia.
  - lia.
  - rewrite app_length, Nat2Z.inj_add, I. reflexivity.
  - cbv zeta. fold avail1 m1. rewrite skipn_length, Nat2Z.inj_sub by lia. nia.
  - cbv zeta in E2. fold avail1 m1 in E2. exists pos2. split; [lia|]. rewrite app_assoc. rewrite E2. clear E2.
    assert (DV : m / width bits = Z.of_nat k + m1 / width bits).
    { rewrite MM, <- LD, Z.mul_comm, Z.div_add_l by lia. reflexivity. }
    f_equal. f_equal; [|rewrite DV; lia]. f_equal; [f_equal; lia|].
    rewrite <- app_assoc. f_equal. rewrite app_assoc. f_equal.
    + rewrite <- decode_app by (rewrite LK; exact S3). f_equal. rewrite MM, Z2Nat.inj_add by lia.
      assert (BA : blk = firstn (Z.to_nat rs) avail).
      { unfold blk, bs. rewrite firstn_firstn. f_equal. lia. }
      destruct MB as [MB|MB].
      * rewrite AV. rewrite BA. replace (length bs) with (Z.to_nat rs) by lia.
        rewrite <- (firstn_skipn (Z.to_nat rs) avail) at 3. rewrite firstn_app, firstn_firstn.
        rewrite firstn_length. replace (Init.Nat.min (Z.to_nat rs + Z.to_nat m1) (Z.to_nat rs)) with (Z.to_nat rs) by lia.
        f_equal. f_equal. lia.
      * rewrite MB. change (Z.to_nat 0) with 0%nat. cbn [firstn]. rewrite app_nil_r, Nat.add_0_r. exact BA.
    + rewrite skipn_skipn, DV. f_equal. assert (0 <= m1 / width bits) by (apply Z.div_pos; lia). lia.
Qed.

(** Clearing bytes behind the frames which were read. *)
Lemma clear_mid a old bytes : 0 <= bytes -> (bytes + 1) / 2 <= Z.of_nat (length old) ->
  exists tail, clear_bytes false (a ++ old) (Z.of_nat (length a)) bytes = Ok (a ++ tail) /\ length tail = length old /\
    firstn (Z.to_nat (bytes / 2)) tail = repeat 0 (Z.to_nat (bytes / 2)) /\
    skipn (Z.to_nat ((bytes + 1) / 2)) tail = skipn (Z.to_nat ((bytes + 1) / 2)) old.
Proof.
  intros B L. set (q := Z.to_nat (bytes / 2)).
  assert (Q : Z.of_nat q = bytes / 2) by (unfold q; rewrite Z2Nat.id; [reflexivity|apply Z.div_pos; lia]).
  assert (ST : store (a ++ old) (Z.of_nat (length a)) (repeat 0 q) = Ok (a ++ repeat 0 q ++ skipn q old)).
  { rewrite <- (firstn_skipn q old) at 1. apply store_mid; [|reflexivity].
    rewrite firstn_length, repeat_length. Z.to_euclidean_division_equations; lia. }
  unfold clear_bytes. fold q. rewrite ST. cbn [bind]. destruct (bytes mod 2 =? 0) eqn:M.
  - exists (repeat 0 q ++ skipn q old). split; [reflexivity|].
    assert (Z.to_nat ((bytes + 1) / 2) = q) as -> by (unfold q; f_equal; Z.to_euclidean_division_equations; lia).
    split; [rewrite app_length, repeat_length, skipn_length; Z.to_euclidean_division_equations; lia|].
    split.
    + pose proof (firstn_exact (repeat 0 q) (skipn q old)) as F. rewrite repeat_length in F. exact F.
    + pose proof (skipn_exact (repeat 0 q) (skipn q old)) as F. rewrite repeat_length in F. exact F.
  - assert (Z.to_nat ((bytes + 1) / 2) = S q) as -> by (Z.to_euclidean_division_equations; lia).
    assert (SL : (S q <= length old)%nat) by (Z.to_euclidean_division_equations; lia).
    destruct (skipn q old) as [|v r] eqn:SK; [exfalso; assert (length (skipn q old) = 0%nat) as X by (rewrite SK; reflexivity); rewrite skipn_length in X; lia|].
    replace (Z.of_nat (length a) + bytes / 2) with (Z.of_nat (length (a ++ repeat 0 q))) by (rewrite app_length, repeat_length; lia).
    rewrite app_assoc. rewrite aget_nth with (d := 0) by (rewrite !app_length; cbn [length]; lia). cbn [bind]. rewrite aset_mid.
    eexists. split; [rewrite <- app_assoc; reflexivity|].
    assert (R : skipn (S q) old = r).
    { replace (S q) with (q + 1)%nat by lia. rewrite <- skipn_skipn, SK. reflexivity. }
    split; [rewrite app_length, repeat_length; cbn [length]; rewrite <- R, skipn_length; lia|].
    split.
    + rewrite firstn_app, repeat_length, Nat.sub_diag. cbn [firstn]. rewrite app_nil_r. apply firstn_all2. rewrite repeat_length. lia.
    + rewrite skipn_app, repeat_length. replace (S q - q)%nat with 1%nat by lia. rewrite skipn_all2 by (rewrite repeat_length; lia). cbn [skipn app].
      exact (eq_sym R).
Qed.

(** Reading frames into an array which holds all bytes of the data chunk. *)
Lemma read_frames_spec n bytes pos mode ap s rate ch bits frames D out :
  0 <= pos -> 0 <= D < Z.of_nat n -> D <= width bits * Z.of_nat (length out) ->
  let avail := skipn (Z.to_nat pos) bytes in
  let m := fit bits (Z.min D (Z.of_nat (length avail))) in
  let got := decode bits (firstn (Z.to_nat m) avail) in
  exists r' tail, BKWaveFileReaderReadFrames n false (mk_reader (mk_file bytes pos mode ap s) rate ch bits frames D) out = Ok (r', got ++ tail) /\
    length (got ++ tail) = length out /\
    width bits * Z.of_nat (length got) = m /\
    firstn (Z.to_nat ((D - m) / 2)) tail = repeat 0 (Z.to_nat ((D - m) / 2)) /\
    skipn (Z.to_nat ((D - m + 1) / 2)) tail = skipn (length got + Z.to_nat ((D - m + 1) / 2)) out.
Proof.
  intros P D0 L. cbv zeta. set (avail := skipn (Z.to_nat pos) bytes). set (m := fit bits (Z.min D (Z.of_nat (length avail)))).
  set (got := decode bits (firstn (Z.to_nat m) avail)).
  assert (W : 1 <= width bits <= 2) by (destruct (width_cases bits) as [[_ ->]|[_ ->]]; lia).
  destruct (fit_bounds bits (Z.min D (Z.of_nat (length avail))) ltac:(lia)) as (F1 & F2 & F3). fold m in F1, F2, F3.
  assert (LG : width bits * Z.of_nat (length got) = m).
  { unfold got. rewrite decode_length; rewrite firstn_length; [lia|]. replace (Z.of_nat (Init.Nat.min (Z.to_nat m) (length avail))) with m by lia. exact F3. }
  destruct (read_blocks_spec bits n bytes pos mode ap s D 0 [] out 0 P ltac:(lia) ltac:(lia) eq_refl) as (pos' & P' & E).
  { cbv zeta. fold avail m. lia. }
  cbv zeta in E. fold avail m got in E. cbn [app] in E. unfold BKWaveFileReaderReadFrames. cbn [rd_bits rd_file rd_dataSize].
  rewrite E. cbn [bind].
  assert (MW : m / width bits = Z.of_nat (length got)) by (rewrite <- LG, Z.mul_comm, Z.div_mul; lia).
  rewrite MW, !Z.add_0_l, Nat2Z.id.
  destruct (clear_mid got (skipn (length got) out) (D - m)) as (tail & E2 & L2 & Z2 & S2).
  - lia.
  - rewrite skipn_length. destruct (width_cases bits) as [[_ WW]|[_ WW]]; rewrite WW in *; Z.to_euclidean_division_equations; lia.
  - rewrite E2. cbn [bind]. eexists. exists tail. split; [reflexivity|]. rewrite skipn_length in L2.
    split; [rewrite app_length, L2; nia|]. split; [exact LG|]. split; [exact Z2|]. rewrite S2. rewrite skipn_skipn. reflexivity.
Qed.

(** ** Reading what was written *)

Lemma decode_encode bits fs : bits = 8 \/ bits = 16 -> Forall frame_ok fs -> decode bits (encode bits fs) = map (quantised bits) fs.
Proof.
  intros [-> | ->] F; unfold decode, encode, quantised.
  - change (8 =? 8) with true. cbn iota. unfold frames8. rewrite map_map. apply map_ext_in. intros v I. rewrite Forall_forall in F. specialize (F v I). unfold frame_ok in F.
    unfold s16. Z.to_euclidean_division_equations; lia.
  - change (16 =? 8) with false. cbn iota. induction F as [|v fs F _ IH]; [reflexivity|]. cbn [map concat le16 app frames16]. rewrite IH. f_equal.
    unfold frame_ok in F. unfold load, le_val, s16. Z.to_euclidean_division_equations; lia.
Qed.

(** ** Any bytes *)

Lemma le_val_range bs : Forall byte_ok bs -> 0 <= le_val bs < 256 ^ Z.of_nat (length bs).
Proof.
  induction 1 as [|b bs B _ IH]; [cbn; lia|]. unfold byte_ok in B. cbn [le_val length]. rewrite Nat2Z.inj_succ, Z.pow_succ_r by lia. lia.
Qed.
Lemma Forall_firstn {A} (P : A -> Prop) : forall n l, Forall P l -> Forall P (firstn n l).
Proof. induction n as [|n IH]; intros l F; [constructor|]. destruct F; cbn [firstn]; [constructor|]. constructor; [assumption|]. apply IH. assumption. Qed.
Lemma Forall_skipn {A} (P : A -> Prop) : forall n l, Forall P l -> Forall P (skipn n l).
Proof. induction n as [|n IH]; intros l F; [exact F|]. destruct F; cbn [skipn]; [constructor|]. apply IH. assumption. Qed.

Lemma number_range i n bs : Forall byte_ok bs -> 0 <= number false i n bs < 256 ^ Z.of_nat n.
Proof.
  intros F. unfold number, load, field. pose proof (le_val_range (firstn n (skipn i bs)) (Forall_firstn _ _ _ (Forall_skipn _ _ _ F))) as R.
  assert (256 ^ Z.of_nat (length (firstn n (skipn i bs))) <= 256 ^ Z.of_nat n) by (apply Z.pow_le_mono_r; [lia|rewrite firstn_length; lia]). lia.
Qed.

Lemma field_firstn i n k bs : (i + n <= k)%nat -> field i n (firstn k bs) = field i n bs.
Proof. intros L. unfold field. rewrite skipn_firstn_comm, firstn_firstn. f_equal. lia. Qed.
Lemma number_firstn big i n k bs : (i + n <= k)%nat -> number big i n (firstn k bs) = number big i n bs.
Proof. intros L. unfold number. rewrite field_firstn by exact L. reflexivity. Qed.

Lemma find_data_total bytes mode ap s : Forall byte_ok bytes -> forall n pos, 0 <= pos -> Z.of_nat (length bytes) - pos < Z.of_nat n -> (0 < n)%nat ->
  exists pos' found, find_data n false (mk_file bytes pos mode ap s) = Ok (mk_file bytes pos' mode ap s, found) /\
    match found with Some size => 0 <= size < 4294967296 /\ pos + 8 <= pos' <= Z.of_nat (length bytes) | None => True end.
Proof.
  intros F. induction n as [|n IH]; intros pos P L N; [lia|]. cbn [find_data]. unfold fread at 1. cbn [f_pos f_bytes].
  set (bs := firstn (Z.to_nat 8) (skipn (Z.to_nat pos) bytes)).
  assert (LB : Z.of_nat (length bs) = Z.min 8 (Z.max 0 (Z.of_nat (length bytes) - pos))) by (unfold bs; rewrite firstn_length, skipn_length; lia).
  unfold fseek at 1. cbn [f_bytes f_mode f_append f_seekable].
  destruct (Z.of_nat (length bs) <? 8) eqn:S8; [eexists; exists None; split; [reflexivity|exact I]|].
  pose proof (number_range 4 4 bs (Forall_firstn _ _ _ (Forall_skipn _ _ _ F))) as R. change (256 ^ Z.of_nat 4) with 4294967296 in R.
  destruct (same_bytes (field 0 4 bs) DATA).
  - eexists. eexists. split; [reflexivity|]. cbv beta iota. lia.
  - destruct (IH (pos + Z.of_nat (length bs) + number false 4 4 bs)) as (pos' & found & E & X); [lia|lia|lia|].
    exists pos', found. unfold fseek. cbn [f_pos f_bytes f_mode f_append f_seekable]. split; [exact E|]. destruct found; [|exact I]. lia.
Qed.

(** Parsing any bytes. *)
Lemma read_header_total n bytes pos mode ap s : Forall byte_ok bytes -> 0 <= pos -> Z.of_nat (length bytes) < Z.of_nat n ->
  let b := skipn (Z.to_nat pos) bytes in
  let ch := le_val (field 22 2 b) in
  let good := field 0 4 b = RIFF /\ field 8 4 b = WAVE /\ field 12 4 b = FMT /\ le_val (field 20 2 b) = 1 in
  let bits := le_val (field 34 2 b) in
  (exists f, read_header n false (mk_reader (mk_file bytes pos mode ap s) 0 0 0 0 0) = Ok (mk_reader f 0 0 0 0 0, -1)) \/
  (good /\ (bits = 8 \/ bits = 16) /\ ch = 0 /\ read_header n false (mk_reader (mk_file bytes pos mode ap s) 0 0 0 0 0) = Err EDiv0) \/
  (good /\ (bits = 8 \/ bits = 16) /\ 1 <= ch <= 65535 /\ exists pos' d,
     pos + 44 <= pos' <= Z.of_nat (length bytes) /\ 0 <= d < Z.max 4294967296 (Z.of_nat (length bytes)) /\
     read_header n false (mk_reader (mk_file bytes pos mode ap s) 0 0 0 0 0) =
     Ok (mk_reader (mk_file bytes pos' mode ap s) (s32 (le_val (field 24 4 b))) ch bits (s32 (Z.quot (Z.quot (s32 d) ch) (width bits))) d, 0)).
Proof.
  intros F P L. cbv zeta.
  match goal with |- context [read_header ?n ?b ?r] => remember (read_header n b r) as X eqn:EX end. revert EX.
  unfold read_header. cbn [rd_file]. unfold fread. cbn [f_pos f_bytes]. set (b := skipn (Z.to_nat pos) bytes).
  set (h1 := firstn (Z.to_nat 12) b). unfold fseek. cbn [f_pos f_bytes f_mode f_append f_seekable].
  destruct (Z.of_nat (length h1) <? 12) eqn:L1; [intros EX; left; eexists; exact EX|].
  assert (E1 : field 0 4 h1 = field 0 4 b) by (apply field_firstn; cbn; lia).
  assert (E2 : field 8 4 h1 = field 8 4 b) by (apply field_firstn; cbn; lia).
  rewrite E1, E2.
  destruct (same_bytes (field 0 4 b) RIFF) eqn:S1; cbn [negb]; [|intros EX; left; eexists; exact EX].
  destruct (same_bytes (field 8 4 b) WAVE) eqn:S2; cbn [negb]; [|intros EX; left; eexists; exact EX].
  apply same_bytes_eq in S1, S2.
  assert (LH : length h1 = 12%nat) by (unfold h1 in *; rewrite firstn_length in *; lia).
  rewrite LH. unfold fread. cbn [f_pos f_bytes].
  assert (B2 : skipn (Z.to_nat (pos + Z.of_nat 12)) bytes = skipn 12 b) by (unfold b; rewrite skipn_skipn; f_equal; lia).
  rewrite B2. set (h2 := firstn (Z.to_nat 24) (skipn 12 b)). unfold fseek. cbn [f_pos f_bytes f_mode f_append f_seekable].
  destruct (Z.of_nat (length h2) <? 24) eqn:L2; [intros EX; left; eexists; exact EX|].
  assert (G : forall i k, (i + k <= 24)%nat -> field i k h2 = field (12 + i) k b).
  { intros i k K. unfold h2. rewrite field_firstn by (change (Z.to_nat 24) with 24%nat; lia). unfold field. rewrite skipn_skipn. reflexivity. }
  rewrite (G 0%nat 4%nat) by lia. cbn [Nat.add].
  destruct (same_bytes (field 12 4 b) FMT) eqn:S3; cbn [negb]; [|intros EX; left; eexists; exact EX]. apply same_bytes_eq in S3.
  assert (GN : forall i k, (i + k <= 24)%nat -> number false i k h2 = le_val (field (12 + i) k b)).
  { intros i k K. unfold number, load. rewrite G by exact K. reflexivity. }
  rewrite (GN 8%nat 2%nat), (GN 22%nat 2%nat), (GN 10%nat 2%nat), (GN 12%nat 4%nat) by lia. cbn [Nat.add].
  destruct (le_val (field 20 2 b) =? 1) eqn:S4; cbn [negb]; [|intros EX; left; eexists; exact EX].
  destruct (negb (le_val (field 34 2 b) =? 8) && negb (le_val (field 34 2 b) =? 16)) eqn:S5; [intros EX; left; eexists; exact EX|].
  assert (LH2 : length h2 = 24%nat) by (unfold h2 in *; rewrite firstn_length in *; lia).
  rewrite LH2.
  destruct (find_data_total bytes mode ap s F n (pos + Z.of_nat 12 + Z.of_nat 24)) as (pos' & found & E & Y); [lia|lia|lia|].
  rewrite E. cbn [bind]. destruct found as [size|]; [|intros EX; left; eexists; exact EX].
  assert (R : 0 <= le_val (field 22 2 b) < 65536).
  { exact (number_range 22 2 b (Forall_skipn _ _ _ F)). }
  assert (GOOD : field 0 4 b = RIFF /\ field 8 4 b = WAVE /\ field 12 4 b = FMT /\ le_val (field 20 2 b) = 1) by (repeat split; try assumption; lia).
  destruct (le_val (field 22 2 b) =? 0) eqn:C0; intros EX; right.
  - left. split; [exact GOOD|]. split; [lia|]. split; [lia|exact EX].
  - right. split; [exact GOOD|]. split; [lia|]. split; [lia|]. exists pos'. eexists. split; [|split; [|exact EX]]; [lia|].
    unfold fsize. cbn [f_bytes f_pos]. destruct (size =? 0); lia.
Qed.
