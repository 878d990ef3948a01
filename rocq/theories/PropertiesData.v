(** Properties of sample data: C27-C33, C70, C71. *)
From Verif Require Import CInt CIntFacts DataModel DataProofs DataConv DataUsers.
Ltac Zify.zify_post_hook ::= idtac.

(** * C27: normalising *)

Definition is_frame (f : Z) : Prop := -32768 <= f <= 32767.

(** The loudest frame becomes full scale up to rounding: exactly -32767 if it is
    negative, 32766 or 32767 if it is positive.  Order and signs are kept (a
    positive frame may become 0 only beside a frame -32768). *)
Theorem normalize_spec frames : Forall is_frame frames ->
  exists out, BKDataNormalize frames = Ok out /\ length out = length frames /\
    ((forall f, In f frames -> f = 0) -> out = frames) /\
    (forall i f o, nth_error frames i = Some f -> nth_error out i = Some o ->
       -32767 <= o <= 32767 /\ (f = 0 -> o = 0) /\ (f < 0 -> o < 0) /\ (0 < f -> 0 <= o) /\
       (0 < f -> ~ In (-32768) frames -> 0 < o) /\
       (f <> 0 -> (forall g, In g frames -> Z.abs g <= Z.abs f) -> (f < 0 -> o = -32767) /\ (0 < f -> 32766 <= o))) /\
    (forall i j f g o p, nth_error frames i = Some f -> nth_error frames j = Some g ->
       nth_error out i = Some o -> nth_error out j = Some p -> f <= g -> o <= p).
Proof.
  intros H. rewrite (normalize_eq frames H). destruct (max_abs_ge frames 0) as [HG HF].
  set (m := max_abs frames 0) in *.
  assert (Hin : m = 0 \/ exists f, In f frames /\ Z.abs f = m) by (apply (max_abs_in frames 0)).
  rewrite Forall_forall in H, HF. destruct (Z.eqb_spec m 0) as [E|E].
  - assert (Z0 : forall f, In f frames -> f = 0) by (intros f Hf; specialize (HF f Hf); lia).
    exists frames. split; [reflexivity|]. split; [reflexivity|]. split; [reflexivity|]. split.
    + intros i f o H1 H2. assert (o = f) by congruence. subst o. rewrite (Z0 f) by (eapply nth_error_In; eassumption). lia.
    + intros i j f g o p H1 H2 H3 H4. assert (o = f) by congruence. assert (p = g) by congruence. lia.
  - assert (Hm : 0 < m <= 32768).
    { destruct Hin as [?|(f & Hf & Ef)]; [contradiction|]. pose proof (H f Hf) as B. unfold is_frame in B. lia. }
    set (fac := 2147418112 / m).
    exists (map (scaled fac) frames). split; [reflexivity|]. split; [apply map_length|].
    split; [intros Z0; exfalso; destruct Hin as [?|(f & Hf & Ef)]; [contradiction|]; rewrite (Z0 f Hf) in Ef; cbn in Ef; lia|].
    assert (F1 : 65532 <= fac).
    { unfold fac. apply Z.div_le_lower_bound; lia. }
    assert (F2 : m * fac <= 2147418112 < m * fac + m).
    { unfold fac. pose proof (Z.div_mod 2147418112 m ltac:(lia)). pose proof (Z.mod_pos_bound 2147418112 m ltac:(lia)). lia. }
    split.
    + intros i f o H1 H2. rewrite nth_error_map, H1 in H2. cbn [option_map] in H2. injection H2 as <-.
      assert (Hf : In f frames) by (eapply nth_error_In; eassumption).
      pose proof (HF f Hf) as A. destruct (scale_bound m fac f Hm eq_refl A) as [B1 B2].
      unfold scaled in *.
      pose proof (Z.div_mod (f * fac) 65536 ltac:(lia)) as D1. pose proof (Z.mod_pos_bound (f * fac) 65536 ltac:(lia)) as D2.
      split; [exact B2|]. split; [intros ->; reflexivity|]. split; [intros; nia|]. split; [intros; nia|].
      split.
      * intros Hp Hno. assert (m <= 32767).
        { destruct Hin as [?|(g & Hg & Eg)]; [contradiction|]. pose proof (H g Hg) as B. unfold is_frame in B.
          assert (g <> -32768) by (intros ->; contradiction). lia. }
        assert (65536 <= fac) by (unfold fac; apply Z.div_le_lower_bound; lia). nia.
      * intros Hne Hmax. assert (Z.abs f = m).
        { destruct Hin as [?|(g & Hg & Eg)]; [contradiction|]. specialize (Hmax g Hg). lia. }
        split; intros Hs.
        -- assert (f = - m) by lia. subst f. replace (- m * fac) with (- (m * fac)) in * by ring. nia.
        -- assert (f = m) by lia. subst f. nia.
    + intros i j f g o p H1 H2 H3 H4 Hle. rewrite nth_error_map, H1 in H3. rewrite nth_error_map, H2 in H4. cbn [option_map] in *.
      injection H3 as <-. injection H4 as <-. unfold scaled. apply Z.div_le_mono; [lia|]. apply Z.mul_le_mono_nonneg_r; lia.
Qed.
Example normalize_example : Forall is_frame [100; -200; 0; 7] /\ BKDataNormalize [100; -200; 0; 7] = Ok [16383; -32767; 0; 1146].
Proof. split; [repeat constructor; cbn; lia|reflexivity]. Qed.

(** * C28: unsigned data *)

(** The frames are the codes in order, the highest bits first, scaled. *)
Theorem unsigned_frames be data ch params bits w :
  let n := Z.of_nat (length data) in
  bytes data -> n < 2 ^ 28 -> 1 <= ch <= 8 -> n mod ch = 0 -> Z.land params BK_DATA_BITS_MASK = bits ->
  In (bits, w) [(1, 1); (2, 2); (3, 4); (5, 8)] ->
  exists d, BKDataSetData be data n ch params = Ok (Some d, 0) /\
    ds_frames d = map Some (flat_map (fun c => map (unsigned_frame w) (codes w c)) data) /\
    ds_numFrames d = 8 * n / (w * ch) /\ ds_numChannels d = ch.
Proof.
  intros n Hb Hn Hc Hdiv Hbits Hw.
  assert (P : BKDataNumBitsFromParam (Z.land params BK_DATA_BITS_MASK) = Some (w, false) /\ In w [1; 2; 4; 8]).
  { rewrite Hbits. cbn [In] in Hw. destruct Hw as [E|[E|[E|[E|[]]]]]; injection E as <- <-; split; (reflexivity || (cbn; auto)). }
  destruct P as [P Hw2].
  destruct (set_data_spec be data ch params w false Hc Hn P) as (l & L1 & L2 & L3 & E). fold n in L1, L2, L3, E.
  rewrite E. eexists. split; [reflexivity|]. cbn [ds_frames ds_numFrames ds_numChannels].
  assert (W16 : (w =? 16) = false) by (cbn [In] in Hw2; destruct Hw2 as [<-|[<-|[<-|[<-|[]]]]]; reflexivity).
  assert (W8 : (w <=? 8) = true) by (cbn [In] in Hw2; destruct Hw2 as [<-|[<-|[<-|[<-|[]]]]]; reflexivity).
  unfold used in *. rewrite W16 in *. rewrite Z.mul_1_l, Hdiv, Z.sub_0_r, Z.div_1_r in *.
  split; [|split; reflexivity].
  assert (Hl : l = flat_map (fun c => map (unsigned_frame w) (codes w c)) data).
  { assert (G := decode_all_unsigned be w (if negb (Z.land params BK_ENDIAN_MASK =? 0) then negb (Bool.eqb be (Z.land params BK_ENDIAN_MASK =? BK_BIG_ENDIAN)) else false) data Hw2 Hb (length data) 0 ltac:(lia)).
    cbn [Z.of_nat skipn] in G. unfold n in L1. rewrite Nat2Z.id in L1. rewrite L1 in G. rewrite firstn_all in G. congruence. }
  assert (Hlen : Z.of_nat (length l) = 8 * n / (w * ch) * ch).
  { destruct (written_le n w ch ltac:(cbn in *; intuition) Hc ltac:(lia)) as (_ & _ & _ & W4).
    rewrite L2. rewrite <- W4 by (right; exact Hdiv). unfold used. rewrite W16, Z.mul_1_l, Hdiv, Z.sub_0_r, Z.div_1_r. reflexivity. }
  replace (Z.to_nat (8 * n / (w * ch) * ch) - length l)%nat with 0%nat by lia.
  cbn [repeat]. rewrite app_nil_r, Hl. reflexivity.
Qed.
(** The scale: 0 becomes 0, the largest code 32767, and it is strictly increasing. *)
Theorem unsigned_scale w : In w [1; 2; 4; 8] ->
  unsigned_frame w 0 = 0 /\ unsigned_frame w (2 ^ w - 1) = 32767 /\
  (forall v, 0 <= v < 2 ^ w -> 0 <= unsigned_frame w v <= 32767) /\
  (forall v u, 0 <= v < u -> unsigned_frame w v < unsigned_frame w u).
Proof.
  intros Hw. unfold unsigned_frame.
  assert (B : 1 <= 2 ^ w - 1 <= 255) by (cbn [In] in Hw; destruct Hw as [<-|[<-|[<-|[<-|[]]]]]; cbn; lia).
  set (q := 2 ^ w - 1) in *. assert (Q : 2 ^ w = q + 1) by (unfold q; lia). rewrite Q. clearbody q.
  split; [reflexivity|]. split; [rewrite Z.mul_comm; apply Z.div_mul; lia|]. split.
  - intros v Hv. split; [apply Z.div_pos; lia|]. apply Z.div_le_upper_bound; nia.
  - intros v u Hvu.
    assert (v * 32767 / q + 1 <= u * 32767 / q); [|lia].
    rewrite <- Z.div_add by lia. apply Z.div_le_mono; nia.
Qed.
(** The codes of a byte are its digits. *)
Theorem codes_spec c : 0 <= c <= 255 ->
  codes 8 c = [c] /\ codes 4 c = [c / 16; c mod 16] /\
  codes 2 c = [c / 64; c / 16 mod 4; c / 4 mod 4; c mod 4] /\
  forall i, (i < 8)%nat -> nth i (codes 1 c) 0 = Z.b2z (Z.testbit c (7 - Z.of_nat i)).
Proof.
  assert (K : forallb (fun c => zlist_eqb (codes 8 c) [c] && zlist_eqb (codes 4 c) [c / 16; c mod 16] &&
      zlist_eqb (codes 2 c) [c / 64; c / 16 mod 4; c / 4 mod 4; c mod 4] &&
      forallb (fun i => nth i (codes 1 c) 0 =? Z.b2z (Z.testbit c (7 - Z.of_nat i))) (seq 0 8)) all_bytes = true) by (vm_compute; reflexivity).
  intros H. rewrite forallb_forall in K. specialize (K c (in_all_bytes c H)). cbn beta in K.
  apply andb_prop in K. destruct K as [K K4]. apply andb_prop in K. destruct K as [K K3]. apply andb_prop in K. destruct K as [K1 K2].
  split; [now apply zlist_eqb_eq|]. split; [now apply zlist_eqb_eq|]. split; [now apply zlist_eqb_eq|].
  intros i Hi. rewrite forallb_forall in K4. apply Z.eqb_eq. apply (K4 i). apply in_seq. lia.
Qed.
Example unsigned_example :
  BKDataSetData false [27; 255] 2 2 BK_2_BIT_UNSIGNED = Ok (Some (mk_dataset (map Some [0; 10922; 21844; 32767; 32767; 32767; 32767; 32767]) 4 2 2), 0)
  /\ bytes [27; 255] /\ 2 mod 2 = 0.
Proof. split; [vm_compute; reflexivity|]. split; [repeat constructor; lia|reflexivity]. Qed.

(** * C29: signed 8-bit data *)

(** A mono sample of one byte -1 (255) becomes a positive frame; 0 stays 0, so
    neither sign nor order is kept. *)
Theorem signed_frames_refuted : exists d,
  BKDataSetData false [255; 0; 1] 3 1 BK_8_BIT_SIGNED = Ok (Some d, 0) /\ s8 255 = -1 /\
  ds_frames d = [Some 1806; Some 0; Some 258].
Proof. eexists. split; [vm_compute; reflexivity|]. split; reflexivity. Qed.
(** Non-negative bytes are scaled as they should. *)
Theorem signed_frames_partial be data ch params :
  let n := Z.of_nat (length data) in
  Forall (fun c => 0 <= c <= 127) data -> n < 2 ^ 28 -> 1 <= ch <= 8 -> n mod ch = 0 ->
  Z.land params BK_DATA_BITS_MASK = BK_8_BIT_SIGNED ->
  exists d, BKDataSetData be data n ch params = Ok (Some d, 0) /\
    ds_frames d = map (fun c => Some (c * 32767 / 127)) data /\ ds_numFrames d * ch = n /\ ds_numChannels d = ch.
Proof.
  intros n Hb Hn Hc Hdiv Hbits.
  assert (P : BKDataNumBitsFromParam (Z.land params BK_DATA_BITS_MASK) = Some (8, true)) by (rewrite Hbits; reflexivity).
  destruct (set_data_spec be data ch params 8 true Hc Hn P) as (l & L1 & L2 & L3 & E). fold n in L1, L2, L3, E.
  rewrite E. eexists. split; [reflexivity|]. cbn [ds_frames ds_numFrames ds_numChannels].
  unfold used in *. cbn [Z.eqb Pos.eqb Z.leb Z.compare Pos.compare Pos.compare_cont] in *. rewrite Z.mul_1_l, Hdiv, Z.sub_0_r, Z.div_1_r in *.
  change (8 / 8) with 1 in L2. rewrite Z.mul_1_r in L2.
  assert (Hq : 8 * n / (8 * ch) * ch = n).
  { rewrite Z.div_mul_cancel_l by lia. pose proof (Z.div_mod n ch ltac:(lia)). lia. }
  assert (Hl : l = map (fun c => c * 32767 / 127) data).
  { clear - L1 Hb. unfold n in L1. rewrite Nat2Z.id in L1.
    set (rev := if negb (Z.land params BK_ENDIAN_MASK =? 0) then negb (Bool.eqb be (Z.land params BK_ENDIAN_MASK =? BK_BIG_ENDIAN)) else false) in *.
    assert (G : forall k pos, (pos + k <= length data)%nat -> decode_all k be data (Z.of_nat pos) 1 8 true rev = Ok (map (fun c => c * 32767 / 127) (firstn k (skipn pos data)))).
    { induction k as [|k IH]; intros pos Hp; [reflexivity|]. cbn [decode_all]. unfold decode. rewrite aget_nth with (d := 0) by lia. cbn [bind].
      replace (Z.of_nat pos + 1) with (Z.of_nat (S pos)) by lia. rewrite IH by lia. cbn [bind]. rewrite Nat2Z.id.
      assert (exists x t, skipn pos data = x :: t /\ nth pos data 0 = x /\ skipn (S pos) data = t /\ 0 <= x <= 127) as (x & t & E1 & E2 & E3 & Hx).
      { clear - Hp Hb. revert data Hb Hp. induction pos as [|pos IH]; intros [|y data] Hb Hp; cbn [length] in Hp; try lia; inversion Hb; subst.
        - exists y, data. auto.
        - destruct (IH data ltac:(assumption) ltac:(lia)) as (x & t & E1 & E2 & E3 & Hx). exists x, t. auto. }
      rewrite E1, E2, E3. cbn [firstn map app]. f_equal. f_equal.
      assert (s8 x = x) as ->. { unfold s8. change (2 ^ 7) with 128. change (2 ^ 8) with 256. rewrite Z.mod_small by lia. lia. }
      rewrite (u32_id x) by lia. unfold BK_FRAME_MAX. rewrite u32_id by lia. apply s16_id.
      assert (0 <= x * 32767 / 127 <= 32767) by (split; [apply Z.div_pos; lia|apply Z.div_le_upper_bound; lia]). lia. }
    specialize (G (length data) 0%nat ltac:(lia)). cbn [Z.of_nat skipn] in G. rewrite firstn_all in G. congruence. }
  rewrite Hq. unfold n. rewrite Nat2Z.id. rewrite Hl, map_length, Nat.sub_diag. cbn [repeat]. rewrite app_nil_r, map_map.
  split; [reflexivity|]. split; [fold n; lia|reflexivity].
Qed.
Example signed_example : BKDataSetData false [127; 0; 1; 64] 4 2 BK_8_BIT_SIGNED = Ok (Some (mk_dataset (map Some [32767; 0; 258; 16512]) 2 2 8), 0).
Proof. vm_compute. reflexivity. Qed.

(** * C30: byte order *)

(** On a little-endian machine the low byte of big-endian data is lost. *)
Theorem reversed_frames_refuted : exists d e,
  BKDataSetData false [18; 52] 2 1 (Z.lor BK_BIG_ENDIAN BK_16_BIT_SIGNED) = Ok (Some d, 0) /\
  BKDataSetData false [52; 18] 2 1 BK_16_BIT_SIGNED = Ok (Some e, 0) /\
  ds_frames d = [Some 4608] /\ ds_frames e = [Some 4660].
Proof. eexists _, _. split; [vm_compute; reflexivity|]. split; [vm_compute; reflexivity|]. split; reflexivity. Qed.

Definition pairs_swapped : list Z -> list Z :=
  fix go (l : list Z) : list Z := match l with a :: b :: l => b :: a :: go l | _ => l end.
(** In the byte order of the machine (no option or the matching one) the frames
    are the words of the data. *)
Theorem native_frames be data ch params :
  let n := Z.of_nat (length data) in
  n < 2 ^ 28 -> 1 <= ch <= 8 -> n mod (2 * ch) = 0 -> Z.land params BK_DATA_BITS_MASK = BK_16_BIT_SIGNED ->
  Z.land params BK_ENDIAN_MASK = 0 \/ (Z.land params BK_ENDIAN_MASK = BK_BIG_ENDIAN /\ be = true) \/ (Z.land params BK_ENDIAN_MASK = BK_LITTLE_ENDIAN /\ be = false) ->
  exists d, BKDataSetData be data n ch params = Ok (Some d, 0) /\
    ds_frames d = map Some (words be data) /\ ds_numFrames d * (2 * ch) = n /\ ds_numChannels d = ch.
Proof.
  intros n Hn Hc Hdiv Hbits He.
  assert (P : BKDataNumBitsFromParam (Z.land params BK_DATA_BITS_MASK) = Some (16, true)) by (rewrite Hbits; reflexivity).
  destruct (set_data_spec be data ch params 16 true Hc Hn P) as (l & L1 & L2 & L3 & E). fold n in L1, L2, L3, E.
  assert (R : (if negb (Z.land params BK_ENDIAN_MASK =? 0) then negb (Bool.eqb be (Z.land params BK_ENDIAN_MASK =? BK_BIG_ENDIAN)) else false) = false).
  { destruct He as [-> | [[-> ->] | [-> ->]]]; reflexivity. }
  rewrite R in L1. rewrite E. eexists. split; [reflexivity|]. cbn [ds_frames ds_numFrames ds_numChannels].
  unfold used in *. cbn [Z.eqb Pos.eqb Z.leb Z.compare Pos.compare Pos.compare_cont] in *. rewrite Hdiv, Z.sub_0_r in *.
  rewrite Z.mul_1_r in L2.
  assert (Hq : 8 * n / (16 * ch) = n / (2 * ch)).
  { replace (16 * ch) with (8 * (2 * ch)) by ring. now rewrite Z.div_mul_cancel_l by lia. }
  assert (Hk : n = 2 * ch * (n / (2 * ch))) by (pose proof (Z.div_mod n (2 * ch) ltac:(lia)); lia).
  set (k := n / (2 * ch)) in *. assert (Hk0 : 0 <= k) by (apply Z.div_pos; lia).
  assert (Hh : n / 2 = ch * k). { rewrite Hk at 1. replace (2 * ch * k) with (ch * k * 2) by ring. apply Z.div_mul. lia. }
  rewrite Hq. rewrite Hh in *.
  assert (Hl : l = words be data).
  { assert (G := decode_all_words be (Z.to_nat (ch * k)) data 0 ltac:(lia)). cbn [Z.of_nat skipn] in G. rewrite L1 in G.
    replace (2 * Z.to_nat (ch * k))%nat with (length data) in G by lia. rewrite firstn_all in G. congruence. }
  replace (Z.to_nat (k * ch) - length l)%nat with 0%nat by lia. cbn [repeat]. rewrite app_nil_r, Hl.
  split; [reflexivity|]. split; [lia|reflexivity].
Qed.
(** In the other byte order every frame has its high byte, and low byte 0. *)
Theorem reversed_frames_partial data ch params :
  let n := Z.of_nat (length data) in
  bytes data -> n < 2 ^ 28 -> 1 <= ch <= 8 -> n mod (2 * ch) = 0 -> Z.land params BK_DATA_BITS_MASK = BK_16_BIT_SIGNED ->
  Z.land params BK_ENDIAN_MASK = BK_BIG_ENDIAN ->
  exists d, BKDataSetData false data n ch params = Ok (Some d, 0) /\
    ds_frames d = map (fun f => Some (f - f mod 256)) (words false (pairs_swapped data)) /\
    ds_numFrames d * (2 * ch) = n /\ ds_numChannels d = ch.
Proof.
  intros n Hby Hn Hc Hdiv Hbits He.
  assert (P : BKDataNumBitsFromParam (Z.land params BK_DATA_BITS_MASK) = Some (16, true)) by (rewrite Hbits; reflexivity).
  destruct (set_data_spec false data ch params 16 true Hc Hn P) as (l & L1 & L2 & L3 & E). fold n in L1, L2, L3, E.
  rewrite He in L1. change (if negb (BK_BIG_ENDIAN =? 0) then negb (Bool.eqb false (BK_BIG_ENDIAN =? BK_BIG_ENDIAN)) else false) with true in L1.
  rewrite E. eexists. split; [reflexivity|]. cbn [ds_frames ds_numFrames ds_numChannels].
  unfold used in *. cbn [Z.eqb Pos.eqb Z.leb Z.compare Pos.compare Pos.compare_cont] in *. rewrite Hdiv, Z.sub_0_r in *.
  rewrite Z.mul_1_r in L2.
  assert (Hq : 8 * n / (16 * ch) = n / (2 * ch)).
  { replace (16 * ch) with (8 * (2 * ch)) by ring. now rewrite Z.div_mul_cancel_l by lia. }
  assert (Hk : n = 2 * ch * (n / (2 * ch))) by (pose proof (Z.div_mod n (2 * ch) ltac:(lia)); lia).
  set (k := n / (2 * ch)) in *. assert (Hk0 : 0 <= k) by (apply Z.div_pos; lia).
  assert (Hh : n / 2 = ch * k). { rewrite Hk at 1. replace (2 * ch * k) with (ch * k * 2) by ring. apply Z.div_mul. lia. }
  rewrite Hq. rewrite Hh in *.
  assert (Hl : l = map (fun f => f - f mod 256) (words false (pairs_swapped data))).
  { assert (G : forall j data pos, bytes data -> (length (skipn pos data) = 2 * j)%nat ->
      decode_all j false data (Z.of_nat pos) 2 16 true true = Ok (map (fun f => f - f mod 256) (words false (pairs_swapped (skipn pos data))))).
    { clear. induction j as [|j IH]; intros data pos Hb Hp.
      { destruct (skipn pos data); [reflexivity|discriminate]. }
      assert (exists x y t, skipn pos data = x :: y :: t /\ nth pos data 0 = x /\ nth (S pos) data 0 = y /\ skipn (S (S pos)) data = t /\ 0 <= x <= 255 /\ 0 <= y <= 255 /\ (S pos < length data)%nat) as (x & y & t & E1 & E2 & E3 & E4 & Hx & Hy & HL).
      { clear - Hp Hb. revert data Hb Hp. induction pos as [|pos IH]; intros [|y data] Hb Hp; cbn [skipn length] in Hp; try lia; inversion Hb; subst.
        - destruct data as [|z data]; [cbn [length] in Hp; lia|]. inversion H2; subst. exists y, z, data. cbn [length]. repeat split; (reflexivity || lia).
        - destruct (IH data ltac:(assumption) Hp) as (x & z & t & E1 & E2 & E3 & E4 & Hx & Hy & HL). exists x, z, t. cbn [length]. repeat split; (assumption || lia). }
      cbn [decode_all]. unfold decode. rewrite aget_nth with (d := 0) by lia. cbn [bind].
      rewrite aget_nth with (d := 0) by lia. cbn [bind].
      replace (Z.of_nat pos + 2) with (Z.of_nat (S (S pos))) by lia.
      rewrite IH; [|exact Hb|rewrite E4; rewrite E1 in Hp; cbn [length] in Hp; lia]. cbn [bind]. rewrite Nat2Z.id. replace (Z.to_nat (Z.of_nat pos + 1)) with (S pos) by lia.
      rewrite E1, E2, E3, E4. cbn [pairs_swapped words map app]. f_equal. f_equal.
      rewrite Z.shiftr_div_pow2, Z.shiftl_mul_pow2 by lia. change (2 ^ 8) with 256. rewrite Z.div_small by lia. rewrite Z.lor_0_r.
      unfold s16. change (2 ^ 15) with 32768. change (2 ^ 16) with 65536.
      assert (Q : (y + x * 256 + 32768) mod 65536 = (x * 256 + 32768) mod 65536 + y).
      { symmetry. apply Z.mod_unique with ((x * 256 + 32768) / 65536).
        - left. pose proof (Z.mod_pos_bound (x * 256 + 32768) 65536 ltac:(lia)).
          assert ((x * 256 + 32768) mod 65536 = 256 * ((x + 128) mod 256)).
          { replace (x * 256 + 32768) with (256 * (x + 128)) by ring. replace 65536 with (256 * 256) by reflexivity. now rewrite Z.mul_mod_distr_l by lia. }
          pose proof (Z.mod_pos_bound (x + 128) 256 ltac:(lia)). lia.
        - pose proof (Z.div_mod (x * 256 + 32768) 65536 ltac:(lia)). lia. }
      rewrite Q.
      assert (M : ((x * 256 + 32768) mod 65536 + y - 32768) mod 256 = y).
      { assert ((x * 256 + 32768) mod 65536 = 256 * ((x + 128) mod 256)) as ->.
        { replace (x * 256 + 32768) with (256 * (x + 128)) by ring. replace 65536 with (256 * 256) by reflexivity. now rewrite Z.mul_mod_distr_l by lia. }
        replace (256 * ((x + 128) mod 256) + y - 32768) with (y + ((x + 128) mod 256 - 128) * 256) by ring.
        rewrite Z.mod_add by lia. apply Z.mod_small. lia. }
      rewrite M. lia. }
    specialize (G (Z.to_nat (ch * k)) data 0%nat Hby). cbn [Z.of_nat skipn] in G. rewrite L1 in G.
    assert (length data = 2 * Z.to_nat (ch * k))%nat as HL by lia. specialize (G HL). congruence. }
  replace (Z.to_nat (k * ch) - length l)%nat with 0%nat by lia. cbn [repeat]. rewrite app_nil_r, Hl, map_map.
  split; [reflexivity|]. split; [lia|reflexivity].
Qed.
Example native_example :
  BKDataSetData false [52; 18; 255; 255] 4 2 BK_16_BIT_SIGNED = Ok (Some (mk_dataset [Some 4660; Some (-1)] 1 2 16), 0) /\
  BKDataSetData false [18; 52; 255; 255] 4 2 (Z.lor BK_BIG_ENDIAN BK_16_BIT_SIGNED) = Ok (Some (mk_dataset [Some 4608; Some (-256)] 1 2 16), 0) /\
  words false [52; 18; 255; 255] = [4660; -1] /\ 4 mod (2 * 2) = 0.
Proof. repeat split; vm_compute; reflexivity. Qed.

(** * C31: all frames are written, none outside *)

(** The frames reported are as many as the data has; all have been written if
    frames are whole bytes or the channels share the bytes evenly. *)
Theorem convert_fills_partial be data ch params bits nb sg :
  let n := Z.of_nat (length data) in
  n < 2 ^ 28 -> 1 <= ch <= 8 -> Z.land params BK_DATA_BITS_MASK = bits ->
  In (bits, nb, sg) [(1, 1, false); (2, 2, false); (3, 4, false); (4, 8, true); (5, 8, false); (6, 16, true)] ->
  8 <= nb \/ n mod ch = 0 ->
  exists d l, BKDataSetData be data n ch params = Ok (Some d, 0) /\ ds_frames d = map Some l /\
    Z.of_nat (length l) = ds_numFrames d * ch /\ ds_numFrames d = 8 * n / (nb * ch) /\ ds_numChannels d = ch /\ ds_numBits d = nb.
Proof.
  intros n Hn Hc Hbits Hin Hcond.
  assert (P : BKDataNumBitsFromParam (Z.land params BK_DATA_BITS_MASK) = Some (nb, sg)).
  { rewrite Hbits. cbn [In] in Hin. destruct Hin as [E|[E|[E|[E|[E|[E|[]]]]]]]; injection E as <- <- <-; reflexivity. }
  destruct (set_data_spec be data ch params nb sg Hc Hn P) as (l & L1 & L2 & L3 & E). fold n in L1, L2, L3, E.
  destruct (written_le n nb ch (bits_of_param _ _ _ P) Hc ltac:(lia)) as (_ & _ & _ & W4). specialize (W4 Hcond).
  rewrite W4 in L2. rewrite E. eexists _, l. split; [reflexivity|]. cbn [ds_frames ds_numFrames ds_numChannels ds_numBits].
  split; [|repeat split; (reflexivity || exact L2)].
  replace (Z.to_nat (8 * n / (nb * ch) * ch) - length l)%nat with 0%nat by lia. cbn [repeat]. apply app_nil_r.
Qed.
(** Up to 2^28 bytes nothing is read or written outside. *)
Theorem convert_bounds_partial be data ch params :
  let n := Z.of_nat (length data) in
  n < 2 ^ 28 -> exists r, BKDataSetData be data n ch params = Ok r.
Proof.
  intros n Hn.
  destruct ((ch <? 1) || (ch >? BK_MAX_CHANNELS)) eqn:Ec; [eexists; unfold BKDataSetData; rewrite Ec; reflexivity|].
  destruct (BKDataNumBitsFromParam (Z.land params BK_DATA_BITS_MASK)) as [[nb sg]|] eqn:EB.
  - assert (1 <= ch <= 8) by (apply orb_false_elim in Ec; destruct Ec as [E1 E2]; unfold BK_MAX_CHANNELS in E2; lia).
    destruct (set_data_spec be data ch params nb sg H Hn EB) as (l & _ & _ & _ & E). eauto.
  - eexists. unfold BKDataSetData. rewrite Ec, EB. reflexivity.
Qed.
(** 4 bytes of 1-bit data for 3 channels: 10 frames are reported, the last two are
    never written. *)
Theorem convert_fills_refuted : exists d,
  BKDataSetData false [1; 2; 3; 4] 4 3 BK_1_BIT_UNSIGNED = Ok (Some d, 0) /\
  ds_numFrames d = 10 /\ length (ds_frames d) = 30%nat /\ forall i, (24 <= i < 30)%nat -> nth_error (ds_frames d) i = Some None.
Proof.
  eexists. split; [vm_compute; reflexivity|]. split; [reflexivity|]. split; [reflexivity|].
  intros i Hi. do 24 (destruct i as [|i]; [lia|]). do 6 (destruct i as [|i]; [reflexivity|]). lia.
Qed.
(** 2^29 bytes of 8-bit data: the number of bits wraps to 0, no memory is
    allocated for the frames, and the first one is written outside of it. *)
Theorem convert_bounds_refuted : forall be data, Z.of_nat (length data) = 2 ^ 29 ->
  BKDataSetData be data (2 ^ 29) 1 BK_8_BIT_UNSIGNED = Err EBounds.
Proof.
  intros be data HL. unfold BKDataSetData. change (BKDataNumBitsFromParam (Z.land BK_8_BIT_UNSIGNED BK_DATA_BITS_MASK)) with (Some (8, false)).
  change ((1 <? 1) || (1 >? BK_MAX_CHANNELS)) with false. cbv iota.
  change (BKDataCalculateNumFramesFromNumBits (2 ^ 29) 8 1) with 0. change (0 <? 0) with false. cbv iota.
  unfold BKDataConvertFromBits. change (Z.to_nat 0) with 0%nat. cbn [repeat].
  change (8 =? 16) with false. cbv iota. change (2 ^ 29 mod (1 * 1)) with 0. rewrite Z.sub_0_r, Z.div_1_r.
  assert (exists k, Z.to_nat (2 ^ 29) = S k) as [k ->].
  { exists (Z.to_nat (2 ^ 29 - 1)). rewrite <- Z2Nat.inj_succ by lia. f_equal. }
  cbn [conv_loop]. unfold decode. rewrite aget_nth with (d := 0) by lia. cbn [bind store].
  unfold aset. cbn [length]. destruct (0 <=? 0); reflexivity.
Qed.
Example convert_example : exists d, BKDataSetData true [1; 2; 3] 3 2 BK_16_BIT_SIGNED = Ok (Some d, 0) /\ ds_frames d = [] /\
  BKDataSetData true [1; 2; 3; 4; 5; 6] 6 3 BK_4_BIT_UNSIGNED = Ok (Some (mk_dataset (map Some [0; 2184; 0; 4368; 0; 6553; 0; 8737; 0; 10922; 0; 13106]) 4 3 4), 0).
Proof. eexists. repeat split; vm_compute; reflexivity. Qed.

(** * C32: sustain ranges *)

(** Position counted from the end if negative, limited to the sample. *)
Definition position (n p : Z) : Z := Z.max 0 (Z.min n (if p <? 0 then n + 1 + p else p)).

Theorem sustain_range_partial n a b : 0 <= n < 2 ^ 31 - 1 -> - 2 ^ 31 <= a < 2 ^ 31 -> - 2 ^ 31 <= b < 2 ^ 31 ->
  exists s e, BKDataSetSustainRange n (Some (a, b)) = Ok (s, e) /\ 0 <= s <= e /\ e <= n /\
    if a =? b then s = 0 /\ e = 0 else s = Z.min (position n a) (position n b) /\ e = Z.max (position n a) (position n b).
Proof.
  change (2 ^ 31) with 2147483648. intros Hn Ha Hb. unfold BKDataSetSustainRange. rewrite s32_id by lia.
  assert (G : forall a b, -2147483648 <= a < 2147483648 -> -2147483648 <= b < 2147483648 ->
    sustain_range n a b = Ok (Z.min (position n a) (position n b), Z.max (position n a) (position n b))).
  { clear Ha Hb a b. intros a b Ha Hb. unfold sustain_range.
    assert (P : forall x, -2147483648 <= x < 2147483648 ->
      (if x <? 0 then let* k := chk32 (n + 1) in chk32 (x + k) else Ok x) = Ok (if x <? 0 then n + 1 + x else x)).
    { intros x Hx. destruct (Z.ltb_spec x 0); [|reflexivity]. rewrite chk32_ok by lia. cbn [bind]. rewrite chk32_ok by lia. f_equal. lia. }
    rewrite P by assumption. cbn [bind]. rewrite P by assumption. cbn [bind].
    assert (Q : forall x, BKClamp x 0 n = Z.max 0 (Z.min n x)).
    { intros x. unfold BKClamp, BKMin, BKMax. destruct (Z.ltb_spec x 0); [lia|]. destruct (Z.gtb_spec x n); lia. }
    rewrite !Q. fold (position n a). fold (position n b).
    destruct (Z.ltb_spec (position n b) (position n a)); f_equal; f_equal; lia. }
  assert (PB : forall x, 0 <= position n x <= n) by (intros x; unfold position; lia).
  destruct (Z.eqb_spec a b).
  - rewrite G by lia. assert (position n 0 = 0) as -> by (unfold position; change (0 <? 0) with false; cbv iota; lia).
    exists 0, 0. cbn. split; [reflexivity|lia].
  - rewrite G by lia. pose proof (PB a). pose proof (PB b). eexists _, _. split; [reflexivity|]. split; [lia|]. split; [lia|]. split; reflexivity.
Qed.
Theorem sustain_range_null n : 0 <= n < 2 ^ 31 - 1 -> BKDataSetSustainRange n None = Ok (0, 0).
Proof.
  intros Hn. unfold BKDataSetSustainRange, sustain_range. rewrite s32_id by lia. cbn [bind].
  change (0 <? 0) with false. cbn [bind]. unfold BKClamp, BKMin, BKMax. change (0 <? 0) with false. cbv iota.
  destruct (Z.gtb_spec 0 n); [lia|reflexivity].
Qed.
(** A sample of 2^31 - 1 frames: counting from its end overflows. *)
Theorem sustain_range_refuted : BKDataSetSustainRange (2 ^ 31 - 1) (Some (-1, 0)) = Err EOverflow.
Proof. reflexivity. Qed.
Example sustain_range_example : BKDataSetSustainRange 100 (Some (-1, 20)) = Ok (20, 100) /\ BKDataSetSustainRange 100 (Some (-10, 200)) = Ok (91, 100).
Proof. split; reflexivity. Qed.

(** * C33: users *)

(** After any history of setting, resetting and disposing, where resets have no two
    adjacent rejecting users behind an accepting one, the list of every object is
    the expected one: walking from the object over the states gives exactly its
    users, each user points to its object, and each state is in at most one list. *)
Theorem users_partial fuel ops : uvalid_all (fun _ => []) ops -> (length ops < fuel)%nat ->
  exists h, urun fuel dheap_init ops = Ok h /\ users_rep h (uspec_all (fun _ => []) ops).
Proof. intros V F. exact (urun_ok ops fuel dheap_init (fun _ => []) 0 users_rep_init V ltac:(cbn; lia) ltac:(lia)). Qed.
(** After disposing an object no state uses it, whatever the users did before. *)
Theorem users_disposed fuel h u d : users_rep h u -> d <> 0 -> (length (u d) <= fuel)%nat ->
  exists h', ustep fuel h (UDispose d) = Ok h' /\ do_list (dh_data h' d) = 0 /\
    (forall s, s <> 0 -> dt_data (dh_state h' s) <> d) /\
    (forall e, e <> 0 -> e <> d -> forall s, s <> 0 -> dt_data (dh_state h s) = e -> dt_data (dh_state h' s) = e).
Proof.
  intros R Hd F. cbn [ustep].
  destruct (reset_ok fuel h u d (fun _ => false) true R Hd F) as (h' & E & R'); [apply okr_all; reflexivity|].
  exists h'. split; [exact E|]. destruct (R' d Hd) as (C & _ & I & _). rewrite Z.eqb_refl in *.
  rewrite (filter_none (u d) _) in * by reflexivity. split; [exact C|]. split.
  - intros s Hs Ed. apply I in Ed; [|exact Hs]. destruct Ed.
  - intros e He Hne s Hs Es. destruct (R' e He) as (_ & _ & I2 & _). destruct (Z.eqb_spec e d); [contradiction|].
    destruct (R e He) as (_ & _ & I3 & _). apply I2; [exact Hs|]. apply I3; assumption.
Qed.
(** States 1 to 4 use object 9.  When 2 and 3 reject new data, state 3 is removed
    but the list still leads to it and ends there: 4 is lost from the list although
    it still uses the object. *)
Definition reset_trouble : list uop := [USet 1 9; USet 2 9; USet 3 9; USet 4 9; UReset 9 (fun s => (s =? 2) || (s =? 3))].
Theorem users_refuted : exists h, urun 10 dheap_init reset_trouble = Ok h /\
  uspec_all (fun _ => []) reset_trouble 9 = [1; 4] /\
  do_list (dh_data h 9) = 1 /\ dt_next (dh_state h 1) = 3 /\ dt_next (dh_state h 3) = 0 /\ dt_data (dh_state h 3) = 0 /\
  dt_data (dh_state h 4) = 9.
Proof. eexists. split; [vm_compute; reflexivity|]. repeat split; reflexivity. Qed.
(** Disposing the object afterwards does not tell state 4, which keeps using it. *)
Theorem users_refuted_dispose : exists h, urun 10 dheap_init (reset_trouble ++ [UDispose 9]) = Ok h /\ dt_data (dh_state h 4) = 9.
Proof. eexists. split; vm_compute; reflexivity. Qed.
Definition reset_fine : list uop :=
  [USet 1 9; USet 2 9; USet 3 9; USet 4 9; USet 5 8; UReset 9 (fun s => (s =? 1) || (s =? 2) || (s =? 4)); USet 5 9; USet 1 8; UDispose 8].
Example users_example : uvalid_all (fun _ => []) reset_fine /\ uspec_all (fun _ => []) reset_fine 9 = [3; 5] /\ uspec_all (fun _ => []) reset_fine 8 = [].
Proof.
  split; [|split; reflexivity]. cbn [uvalid_all uvalid reset_fine]. repeat (split; [lia|]). split; [|repeat (split; [lia|]); exact I].
  split; [lia|]. vm_compute uspec. apply okr_start. vm_compute. auto.
Qed.

(** * C70: memory of the frames *)

(** Histories without the calls that lose or confuse memory: nothing released is
    released again or played, and after disposing nothing is left. *)
Theorem frames_memory_partial ops : careful PNone false ops ->
  exists m m', mrun dmem_init ops = Ok m /\ mrun m [MDispose] = Ok m' /\ m_live m' = [] /\ m_frames m' = None /\ m_unit m' = None.
Proof.
  intros C. assert (P0 : place_ok dmem_init PNone false).
  { unfold place_ok. cbn. repeat split; try reflexivity; try lia. intros q E. discriminate. }
  destruct (careful_ok ops dmem_init PNone false P0 C) as (m & p & u & E & P).
  exists m. destruct (careful_ok [MDispose] m p u P I) as (m' & p' & u' & E' & P'). exists m'. split; [exact E|]. split; [exact E'|].
  cbn [mrun mstep] in E'.
  destruct (if m_flag (m_set m (m_flag m) (m_frames m) None) then mem_free (m_set m (m_flag m) (m_frames m) None) (m_frames (m_set m (m_flag m) (m_frames m) None)) else Ok (m_set m (m_flag m) (m_frames m) None)) as [m2|e] eqn:Em; cbn [bind] in E'; [|discriminate].
  injection E' as <-. cbn [m_set m_live m_frames m_unit]. split; [|split; reflexivity].
  unfold place_ok in P'. cbn [m_set m_frames m_live m_flag m_next m_unit] in P'. destruct P' as (P' & _).
  destruct p'; [apply P'|destruct P' as ((q & E1 & _) & _); discriminate|destruct P' as (_ & E1); discriminate].
Qed.
Example frames_memory_example : careful PNone false [MSetFramesBorrow 3; MUse; MPlay; MNormalize; MPlay; MSetFramesCopy; MConvert; MPlay; MDispose; MPlay; MLoadWAVE; MSetData].
Proof. cbn. repeat split; discriminate. Qed.
(** Frames copied, then replaced by frames of the caller without copying: disposing
    releases the caller's memory. *)
Theorem frames_memory_refuted_free : mrun dmem_init [MSetFramesCopy; MSetFramesBorrow 0; MDispose] = Err EFreed.
Proof. reflexivity. Qed.
(** Each of these histories leaves memory nobody refers to. *)
Theorem frames_memory_refuted_leak :
  forall ops, In ops [[MSetData]; [MLoadWAVE; MLoadWAVE]; [MSetFramesBorrow 0; MConvert]; [MSetData; MSetFramesCopy]] ->
  exists m, mrun dmem_init (ops ++ [MDispose]) = Ok m /\ m_frames m = None /\ m_live m = [0].
Proof.
  intros ops H. cbn [In] in H. destruct H as [<-|[<-|[<-|[<-|[]]]]]; eexists; (split; [vm_compute; reflexivity|split; reflexivity]).
Qed.

(** * C71: units do not play released frames *)

(** Loading new data does not tell the units, which go on playing the old frames. *)
Theorem released_frames_refuted : mrun dmem_init [MSetFramesCopy; MUse; MPlay; MSetData; MPlay] = Err EFreed.
Proof. reflexivity. Qed.
(** Without loading raw data over frames in use, playing is always defined. *)
Theorem released_frames_partial ops : careful PNone false ops -> exists m, mrun dmem_init (ops ++ [MPlay]) = Ok m.
Proof.
  intros C. assert (P0 : place_ok dmem_init PNone false).
  { unfold place_ok. cbn. repeat split; try reflexivity; try lia. intros q E. discriminate. }
  assert (C2 : careful PNone false (ops ++ [MPlay])).
  { revert C. generalize PNone false. induction ops as [|o ops IH]; intros p u C; [exact I|].
    destruct o; cbn [app careful] in *; intuition. }
  destruct (careful_ok (ops ++ [MPlay]) dmem_init PNone false P0 C2) as (m & p & u & E & P). eauto.
Qed.

Print Assumptions normalize_spec.
Print Assumptions unsigned_frames.
Print Assumptions unsigned_scale.
Print Assumptions codes_spec.
Print Assumptions signed_frames_refuted.
Print Assumptions signed_frames_partial.
Print Assumptions reversed_frames_refuted.
Print Assumptions native_frames.
Print Assumptions reversed_frames_partial.
Print Assumptions convert_fills_partial.
Print Assumptions convert_bounds_partial.
Print Assumptions convert_fills_refuted.
Print Assumptions convert_bounds_refuted.
Print Assumptions sustain_range_partial.
Print Assumptions sustain_range_null.
Print Assumptions sustain_range_refuted.
Print Assumptions users_partial.
Print Assumptions users_disposed.
Print Assumptions users_refuted.
Print Assumptions users_refuted_dispose.
Print Assumptions frames_memory_partial.
Print Assumptions frames_memory_refuted_free.
Print Assumptions frames_memory_refuted_leak.
Print Assumptions released_frames_refuted.
Print Assumptions released_frames_partial.
