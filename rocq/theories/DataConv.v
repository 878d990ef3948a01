(** Conversion of raw data and memory of frames: what is expected, and proofs. *)
From Verif Require Import CInt CIntFacts DataModel DataProofs.
Ltac Zify.zify_post_hook ::= idtac.

(** ** Expected frames *)

(** The unsigned codes of [w] bits in a byte, the highest bits first. *)
Definition codes (w c : Z) : list Z :=
  map (fun i => c / 2 ^ (8 - w * (Z.of_nat i + 1)) mod 2 ^ w) (seq 0 (Z.to_nat (8 / w))).
(** A code scaled to [0 .. 32767]. *)
Definition unsigned_frame (w v : Z) : Z := v * 32767 / (2 ^ w - 1).
(** 16-bit frames in the byte order of the machine. *)
Fixpoint words (bigEndian : bool) (data : list Z) : list Z :=
  match data with
  | a :: b :: data => s16 (if bigEndian then a * 256 + b else a + b * 256) :: words bigEndian data
  | _ => []
  end.

Definition bytes (l : list Z) : Prop := Forall (fun c => 0 <= c <= 255) l.

(** ** Loops *)

(** All bytes, for complete case analysis. *)
Definition all_bytes : list Z := map Z.of_nat (seq 0 256).
Lemma in_all_bytes c : 0 <= c <= 255 -> In c all_bytes.
Proof.
  intros H. apply in_map_iff. exists (Z.to_nat c). split; [lia|]. apply in_seq. lia.
Qed.

Fixpoint zlist_eqb (a b : list Z) : bool :=
  match a, b with
  | [], [] => true
  | x :: a, y :: b => (x =? y) && zlist_eqb a b
  | _, _ => false
  end.
Lemma zlist_eqb_eq a : forall b, zlist_eqb a b = true -> a = b.
Proof.
  induction a as [|x a IH]; intros [|y b] H; try discriminate; [reflexivity|].
  cbn in H. apply andb_prop in H. destruct H as [H1 H2]. apply Z.eqb_eq in H1. subst. f_equal. now apply IH.
Qed.

Definition decode_byte (c nb : Z) : list Z :=
  match nb with
  | 1 => map (sub_frame c 1) [7; 6; 5; 4; 3; 2; 1; 0]
  | 2 => map (sub_frame c 2) [6; 4; 2; 0]
  | 4 => map (sub_frame c 4) [4; 0]
  | _ => [s16 (u32 (c * BK_FRAME_MAX) / 255)]
  end.
Lemma decode_byte_check : forallb (fun w => forallb (fun c => zlist_eqb (decode_byte c w) (map (unsigned_frame w) (codes w c))) all_bytes) [1; 2; 4; 8] = true.
Proof. vm_compute. reflexivity. Qed.
Lemma decode_byte_eq c w : 0 <= c <= 255 -> In w [1; 2; 4; 8] -> decode_byte c w = map (unsigned_frame w) (codes w c).
Proof.
  intros Hc Hw. pose proof decode_byte_check as H. rewrite forallb_forall in H. specialize (H w Hw). cbn beta in H.
  rewrite forallb_forall in H. apply zlist_eqb_eq. apply (H c). now apply in_all_bytes.
Qed.

Lemma decode_unsigned be data pos w : In w [1; 2; 4; 8] -> bytes data -> 0 <= pos < Z.of_nat (length data) ->
  decode be data pos w false false = Ok (map (unsigned_frame w) (codes w (nth (Z.to_nat pos) data 0))).
Proof.
  intros Hw Hb Hp. unfold decode. rewrite aget_nth with (d := 0) by lia. cbn [bind].
  assert (0 <= nth (Z.to_nat pos) data 0 <= 255) as Hc.
  { unfold bytes in Hb. rewrite Forall_forall in Hb. apply Hb. apply nth_In. lia. }
  rewrite <- (decode_byte_eq _ _ Hc Hw). cbn [In] in Hw.
  destruct Hw as [<-|[<-|[<-|[<-|[]]]]]; reflexivity.
Qed.
Lemma decode_unsigned_rev be data pos w rev : In w [1; 2; 4; 8] -> decode be data pos w false rev = decode be data pos w false false.
Proof. intros Hw. cbn [In] in Hw. destruct Hw as [<-|[<-|[<-|[<-|[]]]]]; reflexivity. Qed.
Lemma decode_signed_rev be data pos sg rev : decode be data pos 8 sg rev = decode be data pos 8 sg false.
Proof. reflexivity. Qed.

Lemma decode_all_unsigned be w rev data : In w [1; 2; 4; 8] -> bytes data -> forall n pos,
  (pos + n <= length data)%nat ->
  decode_all n be data (Z.of_nat pos) 1 w false rev = Ok (flat_map (fun c => map (unsigned_frame w) (codes w c)) (firstn n (skipn pos data))).
Proof.
  intros Hw Hb. induction n as [|n IH]; intros pos Hp; [reflexivity|]. cbn [decode_all].
  rewrite decode_unsigned_rev by assumption. rewrite decode_unsigned by (assumption || lia). cbn [bind].
  replace (Z.of_nat pos + 1) with (Z.of_nat (S pos)) by lia. rewrite IH by lia. cbn [bind]. rewrite Nat2Z.id.
  f_equal. rewrite <- (firstn_skipn pos data) at 3.
  assert (exists x t, skipn pos data = x :: t /\ nth pos data 0 = x /\ skipn (S pos) data = t) as (x & t & E1 & E2 & E3).
  { clear - Hp. revert data Hp. induction pos as [|pos IH]; intros [|y data] Hp; cbn [length] in Hp; try lia.
    - exists y, data. auto.
    - destruct (IH data ltac:(lia)) as (x & t & E1 & E2 & E3). exists x, t. auto. }
  rewrite firstn_skipn, E1, E2, E3. reflexivity.
Qed.

Lemma decode_all_words be : forall n data pos, (pos + 2 * n <= length data)%nat ->
  decode_all n be data (Z.of_nat pos) 2 16 true false = Ok (words be (firstn (2 * n) (skipn pos data))).
Proof.
  induction n as [|n IH]; intros data pos Hp; [reflexivity|]. cbn [decode_all].
  unfold decode. rewrite aget_nth with (d := 0) by lia. cbn [bind].
  rewrite aget_nth with (d := 0) by lia. cbn [bind].
  replace (Z.of_nat pos + 2) with (Z.of_nat (S (S pos))) by lia.
  rewrite IH by lia. cbn [bind]. rewrite Nat2Z.id. replace (Z.to_nat (Z.of_nat pos + 1)) with (S pos) by lia.
  f_equal.
  assert (exists x y t, skipn pos data = x :: y :: t /\ nth pos data 0 = x /\ nth (S pos) data 0 = y /\ skipn (S (S pos)) data = t) as (x & y & t & E1 & E2 & E3 & E4).
  { clear - Hp. revert data Hp. induction pos as [|pos IH]; intros [|y data] Hp; cbn [length] in Hp; try lia.
    - destruct data as [|z data]; [cbn [length] in Hp; lia|]. exists y, z, data. auto.
    - destruct (IH data ltac:(lia)) as (x & z & t & E1 & E2 & E3 & E4). exists x, z, t. auto. }
  rewrite E1, E2, E3, E4. replace (2 * S n)%nat with (S (S (2 * n))) by lia. reflexivity.
Qed.

(** ** Number of frames *)

Definition bits_of (bits : Z) : Z := match bits with 1 => 1 | 2 => 2 | 3 => 4 | 4 => 8 | 5 => 8 | _ => 16 end.

Lemma frames_count ds nb ch : In nb [1; 2; 4; 8; 16] -> 1 <= ch <= 8 -> 0 <= ds < 2 ^ 28 ->
  BKDataCalculateNumFramesFromNumBits ds nb ch = 8 * ds / (nb * ch) * ch /\ 0 <= 8 * ds / (nb * ch) * ch <= 8 * ds.
Proof.
  intros Hn Hc Hd. unfold BKDataCalculateNumFramesFromNumBits.
  assert (H1 : nb = 1 \/ nb = 2 \/ nb = 4 \/ nb = 8 \/ nb = 16) by (cbn [In] in Hn; intuition).
  assert (E : 0 <= 8 * ds / (nb * ch) * ch <= 8 * ds).
  { split; [apply Z.mul_nonneg_nonneg; [apply Z.div_pos|]; nia|].
    assert (8 * ds / (nb * ch) * (nb * ch) <= 8 * ds) by (rewrite Z.mul_comm; apply Z.mul_div_le; nia).
    assert (0 <= 8 * ds / (nb * ch)) by (apply Z.div_pos; nia). nia. }
  split; [|exact E]. change (2 ^ 28) with 268435456 in Hd.
  rewrite (u32_id (ds * 8)) by lia. rewrite (s32_id (ds * 8)) by lia.
  assert (P : (if nb <=? 8 then s32 (u32 (nb * ch)) else s32 (u32 ((nb + 3) / 4 * 4 * ch))) = nb * ch).
  { destruct H1 as [->|[->|[->|[->| ->]]]]; cbn [Z.leb Z.compare Pos.compare Pos.compare_cont].
    1-4: rewrite u32_id by lia; rewrite s32_id by lia; reflexivity.
    change ((16 + 3) / 4 * 4) with 16. rewrite u32_id by lia; rewrite s32_id by lia; reflexivity. }
  rewrite P. rewrite Z.quot_div_nonneg by nia. rewrite (Z.mul_comm ds 8).
  generalize dependent (8 * ds / (nb * ch) * ch). intros v Hv. rewrite u32_id by lia. rewrite s32_id by lia. reflexivity.
Qed.

(** Bytes converted. *)
Definition used (ds nb ch : Z) : Z := ds - ds mod ((if nb =? 16 then 2 else 1) * ch).

Lemma written_le ds nb ch : In nb [1; 2; 4; 8; 16] -> 1 <= ch <= 8 -> 0 <= ds ->
  let m := if nb =? 16 then 2 else 1 in
  0 <= used ds nb ch <= ds /\ (used ds nb ch) mod m = 0 /\
  used ds nb ch / m * (if nb <=? 8 then 8 / nb else 1) <= 8 * ds / (nb * ch) * ch /\
  (8 <= nb \/ ds mod ch = 0 -> used ds nb ch / m * (if nb <=? 8 then 8 / nb else 1) = 8 * ds / (nb * ch) * ch).
Proof.
  intros Hn Hc Hd m. unfold used. fold m.
  assert (H1 : nb = 1 \/ nb = 2 \/ nb = 4 \/ nb = 8 \/ nb = 16) by (cbn [In] in Hn; intuition).
  assert (G : forall k, 1 <= k -> k * (ds / ch) <= (k * ds) / ch /\ (ds mod ch = 0 \/ k = 1 -> k * (ds / ch) = (k * ds) / ch)).
  { intros k Hk. pose proof (Z.div_mod ds ch ltac:(lia)). pose proof (Z.mod_pos_bound ds ch ltac:(lia)). split.
    - apply Z.div_le_lower_bound; nia.
    - intros [E | ->].
      + apply Z.div_unique with 0; nia.
      + now rewrite !Z.mul_1_l. }
  assert (M : ds - ds mod ch = ch * (ds / ch)) by (rewrite Z.mod_eq by lia; lia).
  assert (B : 0 <= ds - ds mod ch <= ds).
  { pose proof (Z.mod_pos_bound ds ch ltac:(lia)). pose proof (Z.mod_le ds ch ltac:(lia) ltac:(lia)). lia. }
  destruct H1 as [->|[->|[->|[->| ->]]]]; unfold m; cbn [Z.eqb Pos.eqb Z.leb Z.compare Pos.compare Pos.compare_cont]; rewrite ?Z.mul_1_l.
  - change (8 / 1) with 8. destruct (G 8 ltac:(lia)) as [G1 G2]. rewrite Z.div_1_r, Z.mod_1_r. split; [exact B|]. split; [reflexivity|].
    rewrite M. split; [nia|]. intros [?|E]; [lia|]. rewrite <- (G2 (or_introl E)). ring.
  - change (8 / 2) with 4. destruct (G 4 ltac:(lia)) as [G1 G2]. rewrite Z.div_1_r, Z.mod_1_r. split; [exact B|]. split; [reflexivity|].
    replace (8 * ds / (2 * ch)) with (4 * ds / ch) by (replace (8 * ds) with (2 * (4 * ds)) by ring; now rewrite Z.div_mul_cancel_l by lia).
    rewrite M. split; [nia|]. intros [?|E]; [lia|]. rewrite <- (G2 (or_introl E)). ring.
  - change (8 / 4) with 2. destruct (G 2 ltac:(lia)) as [G1 G2]. rewrite Z.div_1_r, Z.mod_1_r. split; [exact B|]. split; [reflexivity|].
    replace (8 * ds / (4 * ch)) with (2 * ds / ch) by (replace (8 * ds) with (4 * (2 * ds)) by ring; now rewrite Z.div_mul_cancel_l by lia).
    rewrite M. split; [nia|]. intros [?|E]; [lia|]. rewrite <- (G2 (or_introl E)). ring.
  - change (8 / 8) with 1. rewrite Z.div_1_r, Z.mod_1_r. split; [exact B|]. split; [reflexivity|].
    rewrite Z.div_mul_cancel_l by lia. rewrite M. split; [nia|]. intros _. ring.
  - replace (8 * ds / (16 * ch)) with (ds / (2 * ch)) by (replace (16 * ch) with (8 * (2 * ch)) by ring; now rewrite Z.div_mul_cancel_l by lia).
    assert (M2 : ds - ds mod (2 * ch) = 2 * ch * (ds / (2 * ch))) by (rewrite Z.mod_eq by lia; lia).
    pose proof (Z.mod_pos_bound ds (2 * ch) ltac:(lia)). pose proof (Z.mod_le ds (2 * ch) ltac:(lia) ltac:(lia)).
    split; [lia|]. rewrite M2. replace (2 * ch * (ds / (2 * ch))) with ((ch * (ds / (2 * ch))) * 2) by ring.
    rewrite Z.mod_mul, Z.div_mul by lia. split; [reflexivity|]. split; [lia|]. intros _. ring.
Qed.

Lemma bits_of_param bits nb sg : BKDataNumBitsFromParam bits = Some (nb, sg) -> In nb [1; 2; 4; 8; 16].
Proof.
  unfold BKDataNumBitsFromParam. intros H.
  repeat match type of H with context [match ?p with _ => _ end] => destruct p; try discriminate end;
  injection H as <- _; cbn; auto 10.
Qed.

(** The frames of [BKDataSetData]: those decoded, then indeterminate ones. *)
Lemma set_data_spec be data ch params nb sg :
  let ds := Z.of_nat (length data) in
  1 <= ch <= 8 -> ds < 2 ^ 28 -> BKDataNumBitsFromParam (Z.land params BK_DATA_BITS_MASK) = Some (nb, sg) ->
  let rev := if negb (Z.land params BK_ENDIAN_MASK =? 0) then negb (Bool.eqb be (Z.land params BK_ENDIAN_MASK =? BK_BIG_ENDIAN)) else false in
  let m := if nb =? 16 then 2 else 1 in
  let total := 8 * ds / (nb * ch) * ch in
  exists l, decode_all (Z.to_nat (used ds nb ch / m)) be data 0 m nb sg rev = Ok l /\
    Z.of_nat (length l) = used ds nb ch / m * (if nb <=? 8 then 8 / nb else 1) /\ Z.of_nat (length l) <= total /\
    BKDataSetData be data ds ch params =
    Ok (Some (mk_dataset (map Some l ++ repeat None (Z.to_nat total - length l)) (8 * ds / (nb * ch)) ch nb), 0).
Proof.
  intros ds Hc Hd HB rev m total. pose proof (bits_of_param _ _ _ HB) as Hn.
  destruct (frames_count ds nb ch Hn Hc ltac:(lia)) as [FC FB]. fold total in FC, FB.
  destruct (written_le ds nb ch Hn Hc ltac:(lia)) as (W1 & W2 & W3 & W4). fold m in W2, W3, W4. fold total in W3, W4.
  assert (Hm : 1 <= m <= 2) by (unfold m; destruct (nb =? 16); lia).
  assert (Hu : m * (used ds nb ch / m) = used ds nb ch) by (pose proof (Z.div_mod (used ds nb ch) m ltac:(lia)); lia).
  assert (Hu0 : 0 <= used ds nb ch / m) by (apply Z.div_pos; lia).
  destruct (decode_all_ok be data nb sg rev Hn (Z.to_nat (used ds nb ch / m)) 0 ltac:(lia)) as (l & L1 & L2).
  { fold m. rewrite Z2Nat.id by lia. fold ds. nia. }
  fold m in L1. rewrite Z2Nat.id in L2 by lia.
  exists l. split; [exact L1|]. split; [exact L2|]. split; [lia|].
  unfold BKDataSetData. rewrite HB. fold rev.
  destruct (Z.ltb_spec ch 1); [lia|]. change BK_MAX_CHANNELS with 8. destruct (Z.gtb_spec ch 8); [lia|]. cbn [orb].
  rewrite FC. destruct (Z.ltb_spec total 0); [lia|].
  unfold BKDataConvertFromBits. fold m. fold (used ds nb ch).
  change (ds - ds mod (m * ch)) with (used ds nb ch).
  rewrite (conv_loop_spec be data nb sg rev m _ 0 _ 0 l L1); [|lia|rewrite repeat_length; lia].
  cbn [bind]. change (Z.to_nat 0) with 0%nat. cbn [firstn app Nat.add].
  assert (U : u32 total / ch = 8 * ds / (nb * ch)).
  { rewrite u32_id by lia. unfold total. apply Z.div_mul. lia. }
  rewrite U. do 4 f_equal. f_equal.
  generalize (Z.to_nat total) (length l). induction n as [|n IH]; intros k; [now rewrite skipn_nil|].
  destruct k as [|k]; [reflexivity|]. cbn [repeat]. rewrite skipn_cons. apply IH.
Qed.

(** ** Memory of the frames *)

(** Where the frames are: nowhere, in the caller's memory, in memory of the object. *)
Inductive place : Type := PNone | PBorrowed | POwned.
(** Histories without the calls that lose or confuse blocks. *)
Fixpoint careful (p : place) (used : bool) (ops : list mop) : Prop :=
  match ops with
  | [] => True
  | MSetFramesCopy :: ops => careful POwned used ops
  | MSetFramesBorrow _ :: ops => p <> POwned /\ careful PBorrowed used ops
  | MSetData :: ops => p = POwned /\ used = false /\ careful POwned used ops
  | MLoadWAVE :: ops => p <> POwned /\ careful POwned used ops
  | MNormalize :: ops => careful (match p with PNone => PNone | _ => POwned end) used ops
  | MConvert :: ops => p <> PBorrowed /\ careful p used ops
  | MUse :: ops => careful p true ops
  | MPlay :: ops => careful p used ops
  | MDispose :: ops => careful PNone false ops
  end.

Definition place_ok (m : dmem) (p : place) (used : bool) : Prop :=
  match p with
  | PNone => m_frames m = None /\ m_live m = [] /\ m_flag m = false
  | PBorrowed => (exists q, m_frames m = Some q /\ q < 0) /\ m_live m = [] /\ m_flag m = false
  | POwned => (exists q, m_frames m = Some q /\ m_live m = [q] /\ 0 <= q < m_next m) /\ m_flag m = true
  end /\
  0 <= m_next m /\
  (used = false -> m_unit m = None) /\
  (forall q, m_unit m = Some q -> q < 0 \/ (p = POwned /\ m_frames m = Some q)).

Lemma careful_ok : forall ops m p u, place_ok m p u -> careful p u ops ->
  exists m' p' u', mrun m ops = Ok m' /\ place_ok m' p' u'.
Proof.
  induction ops as [|o ops IH]; intros m p u P C; [exists m, p, u; split; [reflexivity|exact P]|].
  assert (exists m1 p1 u1, mstep m o = Ok m1 /\ place_ok m1 p1 u1 /\ careful p1 u1 ops) as (m1 & p1 & u1 & E & P1 & C1).
  { destruct m as [live nxt flag fr un]. unfold place_ok in P. cbn [m_frames m_live m_flag m_next m_unit] in P.
    destruct P as (P & Hn & Hu & HU).
    destruct o; cbn [careful] in C; cbn [mstep].
    - (* SetFramesCopy *)
      exists (mk_dmem [nxt] (nxt + 1) true (Some nxt) (match un with None => None | Some _ => Some nxt end)), POwned, u.
      assert (place_ok (mk_dmem [nxt] (nxt + 1) true (Some nxt) (match un with None => None | Some _ => Some nxt end)) POwned u) as PO.
      { unfold place_ok. cbn [m_frames m_live m_flag m_next m_unit]. split; [split; [exists nxt; repeat split; lia|reflexivity]|].
        split; [lia|]. split; [intros H; rewrite (Hu H); reflexivity|]. intros q. destruct un; [intros E; injection E as <-; right; auto|discriminate]. }
      split; [|split; [exact PO|exact C]].
      destruct p.
      + destruct P as (-> & -> & ->). reflexivity.
      + destruct P as ((q & -> & Hq) & -> & ->). reflexivity.
      + destruct P as ((q & -> & -> & Hq) & ->). cbn [m_flag]. unfold mem_realloc, mem_free. cbn [m_frames m_live existsb].
        rewrite Z.eqb_refl. cbn [orb bind m_live m_next m_flag m_unit]. unfold mem_alloc. cbn [bind m_live m_next m_flag m_unit m_frames].
        cbn [remove]. destruct (Z.eq_dec q q); [|congruence]. reflexivity.
    - (* Borrow *)
      destruct C as [Cp C]. eexists (mk_dmem [] nxt false (Some (-1 - Z.abs p0)) (match un with None => None | Some _ => Some (-1 - Z.abs p0) end)), PBorrowed, u.
      split; [|split; [|exact C]].
      + destruct p; [destruct P as (-> & -> & ->); reflexivity|destruct P as ((q & -> & Hq) & -> & ->); reflexivity|congruence].
      + unfold place_ok. cbn [m_frames m_live m_flag m_next m_unit]. split; [split; [eexists; split; [reflexivity|lia]|split; reflexivity]|].
        split; [lia|]. split; [intros H; rewrite (Hu H); reflexivity|]. intros q. destruct un; [|discriminate]. intros E. left. assert (-1 - Z.abs p0 = q) by congruence. lia.
    - (* SetData *)
      destruct C as (-> & -> & C). destruct P as ((q & -> & -> & Hq) & ->). specialize (Hu eq_refl). subst un.
      exists (mk_dmem [nxt] (nxt + 1) true (Some nxt) None), POwned, false. split; [|split; [|exact C]].
      + cbn [m_flag]. unfold mem_realloc, mem_free. cbn [m_frames m_live existsb].
        rewrite Z.eqb_refl. cbn [orb bind m_live m_next m_flag m_unit]. unfold mem_alloc. cbn [bind m_live m_next m_flag m_unit m_frames].
        cbn [remove]. destruct (Z.eq_dec q q); [|congruence]. reflexivity.
      + unfold place_ok. cbn [m_frames m_live m_flag m_next m_unit]. split; [split; [exists nxt; repeat split; lia|reflexivity]|].
        split; [lia|]. split; [reflexivity|]. intros q0 E; discriminate.
    - (* LoadWAVE *)
      destruct C as [Cp C]. exists (mk_dmem [nxt] (nxt + 1) true (Some nxt) un), POwned, u. split; [|split; [|exact C]].
      + destruct p; [destruct P as (-> & -> & ->); reflexivity|destruct P as ((q & -> & Hq) & -> & ->); reflexivity|congruence].
      + unfold place_ok. cbn [m_frames m_live m_flag m_next m_unit]. split; [split; [exists nxt; repeat split; lia|reflexivity]|].
        split; [lia|]. split; [exact Hu|]. intros q E. destruct (HU q E) as [H|[H _]]; [left; exact H|congruence].
    - (* Normalize *)
      destruct p.
      + destruct P as (-> & -> & ->). eexists _, PNone, u. split; [reflexivity|]. split; [|exact C].
        unfold place_ok. cbn [m_frames m_live m_flag m_next m_unit]. repeat split; auto.
      + destruct P as ((q & -> & Hq) & -> & ->). exists (mk_dmem [nxt] (nxt + 1) true (Some nxt) un), POwned, u. split; [reflexivity|]. split; [|exact C].
        unfold place_ok. cbn [m_frames m_live m_flag m_next m_unit]. split; [split; [exists nxt; repeat split; lia|reflexivity]|].
        split; [lia|]. split; [exact Hu|]. intros q0 E. destruct (HU q0 E) as [H|[H _]]; [left; exact H|discriminate].
      + destruct P as ((q & -> & -> & Hq) & ->). eexists _, POwned, u. split; [reflexivity|]. split; [|exact C].
        unfold place_ok. cbn [m_frames m_live m_flag m_next m_unit]. split; [split; [exists q; auto|reflexivity]|]. auto.
    - (* Convert *)
      destruct C as [Cp C]. destruct p.
      + destruct P as (-> & -> & ->). eexists _, PNone, u. split; [reflexivity|]. split; [|exact C].
        unfold place_ok. cbn [m_frames m_live m_flag m_next m_unit]. repeat split; auto.
      + congruence.
      + destruct P as ((q & -> & -> & Hq) & ->). eexists _, POwned, u. split; [reflexivity|]. split; [|exact C].
        unfold place_ok, m_notify, m_set. cbn [m_frames m_live m_flag m_next m_unit]. split; [split; [exists q; auto|reflexivity]|]. split; [lia|].
        split; [intros H; rewrite (Hu H); reflexivity|]. intros q0. destruct un; [auto|discriminate].
    - (* Use *)
      exists (mk_dmem live nxt flag fr fr), p, true. split; [reflexivity|]. split; [|exact C].
      unfold place_ok. cbn [m_frames m_live m_flag m_next m_unit]. split; [exact P|]. split; [lia|]. split; [discriminate|].
      intros q ->. destruct p; [destruct P as (? & _); discriminate| |right; auto].
      destruct P as ((q' & E & Hq) & _). injection E as ->. left. exact Hq.
    - (* Play *)
      exists (mk_dmem live nxt flag fr un), p, u. split; [|split; [|exact C]].
      2: { unfold place_ok. cbn [m_frames m_live m_flag m_next m_unit]. split; [exact P|]. split; [exact Hn|]. split; [exact Hu|exact HU]. }
      cbn [m_unit m_live]. destruct un as [q|]; [|reflexivity]. destruct (HU q eq_refl) as [H|[-> H]].
      + destruct (Z.ltb_spec q 0); [reflexivity|lia].
      + destruct P as ((q' & E & -> & Hq) & _). rewrite H in E. injection E as <-. cbn [existsb]. rewrite Z.eqb_refl, orb_true_r. reflexivity.
    - (* Dispose *)
      exists (mk_dmem [] nxt false None None), PNone, false. split; [|split; [|exact C]].
      + destruct p; [destruct P as (-> & -> & ->); reflexivity|destruct P as ((q & -> & Hq) & -> & ->); reflexivity|].
        destruct P as ((q & -> & -> & Hq) & ->). unfold m_set, mem_free. cbn [m_flag m_frames m_live existsb].
        rewrite Z.eqb_refl. cbn [orb bind m_live m_next m_flag m_unit m_frames remove]. destruct (Z.eq_dec q q); [|congruence]. reflexivity.
      + unfold place_ok. cbn [m_frames m_live m_flag m_next m_unit]. repeat split; auto. intros q E; discriminate. }
  cbn [mrun]. rewrite E. cbn [bind]. exact (IH m1 p1 u1 P1 C1).
Qed.
