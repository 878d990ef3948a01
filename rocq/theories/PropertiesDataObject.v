(** Properties of data objects: C89-C95. *)
From Verif Require Import CInt CIntFacts DataModel WaveModel WaveSpec PropertiesWave DataObjectModel.
Open Scope Z_scope.
Ltac Zify.zify_post_hook ::= idtac.

(** Blocks not yet allocated do not exist. *)
Definition heap_ok (h : heap) : Prop := 0 <= hp_next h /\ forall p, hp_next h <= p -> hp_block h p = None.
(** Frames of the object are its own or those of someone else. *)
Definition own_ok (h : heap) (d : bkdata) : Prop :=
  bd_copy d = true -> match bd_frames d with None => True | Some p => 0 <= p /\ hp_block h p <> None end.
Definition shape_ok (numFrames numChannels : Z) : Prop := 2 <= numFrames /\ 1 <= numChannels <= 8 /\ numFrames * numChannels < 2147483648.

Lemma shape_size n c : shape_ok n c -> u32 (u32 (n * c) * 2) / 2 = n * c.
Proof. intros (N & C & L). assert (0 <= n * c) by nia. rewrite !u32_id by (try rewrite u32_id; lia). apply Z.div_mul. lia. Qed.

(** * C90: setting frames *)

(** Blocks other than those of the object. *)
Definition others_kept (h h' : heap) (ps : list Z) : Prop := forall q, ~ In q ps -> hp_block h' q = hp_block h q.

(** The object gets its own copy of the frames; the frames it had are released if they were a
    copy and nothing else changes. *)
Theorem C90_copied_partial h d src s n c : heap_ok h -> own_ok h d -> shape_ok n c ->
  hp_block h src = Some s -> n * c <= Z.of_nat (length s) -> (bd_copy d = true -> bd_frames d <> Some src) ->
  exists h', BKDataSetFrames h d (Some src) n c true = Ok (h', put_frames d true 16 (bd_sampleRate d) n c (Some (hp_next h)), 0) /\ heap_ok h' /\
    hp_block h (hp_next h) = None /\ hp_block h' (hp_next h) = Some (firstn (Z.to_nat (n * c)) s) /\
    (match bd_frames d with Some p => bd_copy d = true -> hp_block h' p = None | None => True end) /\
    others_kept h h' (hp_next h :: if bd_copy d then match bd_frames d with Some p => [p] | None => [] end else []).
Proof.
  intros (H0 & HN) OW SH HS L NE. pose proof SH as (N & C & M). unfold BKDataSetFrames. destruct (n <? 2) eqn:E; [lia|].
  assert ((c <? 1) || (c >? BK_MAX_CHANNELS) = false) as -> by (unfold BK_MAX_CHANNELS; lia). rewrite (shape_size n c SH).
  set (k := Z.to_nat (n * c)). assert (K : (k <= length s)%nat) by lia. assert (SN : src <> hp_next h) by (intros ->; rewrite HN in HS by lia; discriminate).
  assert (CP : forall h2 t, hp_block h2 src = Some s -> hp_block h2 (hp_next h) = Some t -> length t = k ->
    copy_block h2 (hp_next h) (Some src) k = Ok (hset h2 (hp_next h) (Some (firstn k s)))).
  { intros h2 t A B T. unfold copy_block, hget. rewrite A, B. cbn [bind]. assert (Nat.ltb (length s) k = false) as -> by (apply Nat.ltb_ge; lia).
    assert (Nat.ltb (length t) k = false) as -> by (apply Nat.ltb_ge; lia). cbn [orb]. rewrite (skipn_all2 t) by lia. rewrite app_nil_r. reflexivity. }
  assert (NEW : hp_block h (hp_next h) = None) by (apply HN; lia).
  destruct (bd_copy d) eqn:BC.
  - specialize (OW BC). destruct (bd_frames d) as [p|] eqn:BF.
    + destruct OW as [P0 PL]. assert (PS : p <> src) by (intros ->; apply (NE eq_refl); reflexivity). assert (PN : p <> hp_next h) by (intros ->; congruence).
      unfold realloc, hfree, hget. destruct (hp_block h p) as [old|] eqn:OLD; [|congruence]. cbn [bind]. assert (p <? 0 = false) as -> by lia. cbn [bind malloc hp_next hset hp_block].
      erewrite CP; [|cbn [hp_block]; destruct (src =? hp_next h) eqn:E1; [lia|]; destruct (src =? p) eqn:E2; [lia|exact HS]|cbn [hp_block]; rewrite Z.eqb_refl; reflexivity|unfold resized; rewrite app_length, firstn_length, repeat_length; lia].
      cbn [bind]. eexists. split; [reflexivity|]. unfold hset. cbn [hp_block hp_next]. split; [split|]; [cbn; lia| |].
      * intros q Q. cbn in Q. destruct (q =? hp_next h) eqn:E1; [lia|]. cbn [hp_block]. rewrite ?E1. destruct (q =? p) eqn:E2; [reflexivity|]. apply HN. lia.
      * split; [exact NEW|]. split; [rewrite Z.eqb_refl; reflexivity|]. split.
        -- intros _. destruct (p =? hp_next h) eqn:E1; [lia|]. cbn [hp_block]. rewrite ?E1, ?Z.eqb_refl. reflexivity.
        -- intros q Q. cbn [In] in Q. destruct (q =? hp_next h) eqn:E1; [exfalso; apply Q; left; lia|]. cbn [hp_block]. rewrite ?E1. destruct (q =? p) eqn:E2; [exfalso; apply Q; right; left; lia|]. reflexivity.
    + unfold realloc, hfree. cbn [bind malloc hp_next].
      erewrite CP; [|cbn [hp_block]; destruct (src =? hp_next h) eqn:E1; [lia|exact HS]|cbn [hp_block]; rewrite Z.eqb_refl; reflexivity|unfold resized; rewrite app_length, firstn_length, repeat_length; cbn [length]; lia].
      cbn [bind]. eexists. split; [reflexivity|]. unfold hset. cbn [hp_block hp_next]. split; [split|]; [cbn; lia| |].
      * intros q Q. destruct (q =? hp_next h) eqn:E1; [cbn [hp_next] in Q; lia|]. cbn [hp_block]. rewrite ?E1. apply HN. cbn [hp_next] in Q. lia.
      * split; [exact NEW|]. split; [rewrite Z.eqb_refl; reflexivity|]. split; [exact I|].
        intros q Q. cbn [In] in Q. destruct (q =? hp_next h) eqn:E1; [exfalso; apply Q; left; lia|]. cbn [hp_block]. rewrite ?E1. reflexivity.
  - cbn [bind malloc].
    erewrite CP; [|cbn [hp_block]; destruct (src =? hp_next h) eqn:E1; [lia|exact HS]|cbn [hp_block]; rewrite Z.eqb_refl; reflexivity|apply repeat_length].
    cbn [bind]. eexists. split; [reflexivity|]. unfold hset. cbn [hp_block hp_next]. split; [split|]; [cbn; lia| |].
    + intros q Q. cbn [hp_next] in Q. destruct (q =? hp_next h) eqn:E1; [lia|]. cbn [hp_block]. rewrite ?E1. apply HN. lia.
    + split; [exact NEW|]. split; [rewrite Z.eqb_refl; reflexivity|]. split; [destruct (bd_frames d); [discriminate|exact I]|].
      intros q Q. cbn [In] in Q. destruct (q =? hp_next h) eqn:E1; [exfalso; apply Q; left; lia|]. cbn [hp_block]. rewrite ?E1. reflexivity.
Qed.

(** Frames that are not copied are used where they are. *)
Theorem C90_borrowed_partial h d src n c : shape_ok n c -> bd_copy d = false ->
  BKDataSetFrames h d (Some src) n c false = Ok (h, put_frames d false 16 (bd_sampleRate d) n c (Some src), 0).
Proof.
  intros (N & C & M) BC. unfold BKDataSetFrames. destruct (n <? 2) eqn:E; [lia|].
  assert ((c <? 1) || (c >? BK_MAX_CHANNELS) = false) as -> by (unfold BK_MAX_CHANNELS; lia). rewrite BC. reflexivity.
Qed.

(** Memory with one block of the client. *)
Definition client_block (b : list (option Z)) : heap := mk_heap (fun q => if q =? -1 then Some b else None) 0.
Example C90_example : exists h d, heap_ok (client_block [Some 1; Some 2; Some 3; Some 4]) /\ own_ok (client_block [Some 1; Some 2; Some 3; Some 4]) BKDataInit /\ shape_ok 2 2 /\
  BKDataSetFrames (client_block [Some 1; Some 2; Some 3; Some 4]) BKDataInit (Some (-1)) 2 2 true = Ok (h, d, 0) /\ bd_frames d = Some 0 /\ hp_block h 0 = Some [Some 1; Some 2; Some 3; Some 4].
Proof.
  eexists. eexists. split; [split; cbn; [lia|]; intros p P; destruct (p =? -1) eqn:E; [lia|reflexivity]|]. split; [discriminate|]. split; [unfold shape_ok; lia|].
  split; [reflexivity|]. split; reflexivity.
Qed.

(** From 2^31 frames on fewer frames are copied than the object claims to have. *)
Theorem C90_size_refuted : exists h d s, heap_ok h /\ own_ok h d /\ hp_block h (-1) = Some s /\ Z.of_nat (length s) = 2147483648 /\
  exists h' d', BKDataSetFrames h d (Some (-1)) 2147483648 1 true = Ok (h', d', 0) /\ bd_numFrames d' = 2147483648 /\ bd_frames d' = Some 0 /\ hp_block h' 0 = Some [].
Proof.
  exists (client_block (repeat (Some 0) (Z.to_nat 2147483648))), BKDataInit, (repeat (Some 0) (Z.to_nat 2147483648)).
  split; [split; cbn [client_block hp_next hp_block]; [lia|]; intros p P; destruct (p =? -1) eqn:E; [lia|reflexivity]|]. split; [discriminate|]. split; [reflexivity|].
  split; [rewrite repeat_length; lia|]. unfold BKDataSetFrames. change (2147483648 <? 2) with false. change ((1 <? 1) || (1 >? BK_MAX_CHANNELS)) with false. cbn iota.
  change (Z.to_nat (u32 (u32 (2147483648 * 1) * 2) / 2)) with 0%nat. cbn [bd_copy BKDataInit zero_data repeat malloc bind client_block hp_next].
  unfold copy_block, hget. cbn [hp_block]. change (-1 =? 0) with false. change (-1 =? -1) with true. change (0 =? 0) with true. cbn iota. cbn [bind].
  change (hp_block (client_block (repeat (Some 0) (Z.to_nat 2147483648))) (-1)) with (Some (repeat (Some 0) (Z.to_nat 2147483648))). cbn iota. cbn [bind].
  assert (Nat.ltb (length (repeat (Some 0) (Z.to_nat 2147483648))) 0 = false) as -> by (apply Nat.ltb_ge; lia). cbn [length Nat.ltb Nat.leb orb bind firstn skipn app].
  eexists. eexists. split; [reflexivity|]. split; [reflexivity|]. split; reflexivity.
Qed.
(** The frames of the object itself, for example fewer of them, are read after they were released. *)
Theorem C90_own_frames_refuted : exists h d, heap_ok h /\ own_ok h d /\ bd_frames d = Some 0 /\ hp_block h 0 = Some [Some 1; Some 2; Some 3] /\
  BKDataSetFrames h d (bd_frames d) 2 1 true = Err EFreed.
Proof.
  exists (mk_heap (fun q => if q =? 0 then Some [Some 1; Some 2; Some 3] else None) 1), (put_frames BKDataInit true 16 0 3 1 (Some 0)).
  split; [split; cbn; [lia|]; intros p P; destruct (p =? 0) eqn:E; [lia|reflexivity]|]. split; [intros _; cbn; split; [lia|discriminate]|]. split; [reflexivity|]. split; [reflexivity|]. vm_compute. reflexivity.
Qed.

(** * C89: copies *)

(** A copy has the same attributes and frames in a block of its own; the original is kept. *)
Theorem C89_copied_partial h o p b : heap_ok h -> bd_frames o = Some p -> hp_block h p = Some b ->
  shape_ok (bd_numFrames o) (bd_numChannels o) -> Z.of_nat (length b) = bd_numFrames o * bd_numChannels o ->
  exists h' c q, BKDataInitCopy h o = Ok (h', c, 0) /\ bd_frames c = Some q /\ q <> p /\ hp_block h q = None /\ hp_block h' q = Some b /\ others_kept h h' [q] /\
    bd_numFrames c = bd_numFrames o /\ bd_numChannels c = bd_numChannels o /\ bd_sampleRate c = bd_sampleRate o /\ bd_pitch c = bd_pitch o /\ bd_sustain c = bd_sustain o.
Proof.
  intros HO F B SH L. unfold BKDataInitCopy. rewrite F.
  set (c := mk_bkdata false _ _ _ _ _ _ _ _ None).
  destruct (C90_copied_partial h c p b (bd_numFrames o) (bd_numChannels o)) as (h' & E & _ & N & K & _ & OT); try assumption; [exact (fun _ => I)|lia|discriminate|].
  exists h'. eexists. exists (hp_next h). split; [exact E|]. split; [reflexivity|]. split; [intros X; rewrite X in N; congruence|]. split; [exact N|]. split.
  - rewrite K. f_equal. apply firstn_all2. lia.
  - split; [|repeat split]. intros q Q. apply OT. cbn [bd_frames c]. destruct (bd_copy c); exact Q.
Qed.
Theorem C89_copied_empty h o : bd_frames o = None ->
  exists c, BKDataInitCopy h o = Ok (h, c, 0) /\ bd_frames c = None /\ bd_pitch c = bd_pitch o /\ bd_sustain c = bd_sustain o.
Proof. intros F. unfold BKDataInitCopy. rewrite F. eexists. split; [reflexivity|]. repeat split. Qed.

(** A data object with two frames. *)
Definition two_frames : bkdata := put_frames BKDataInit true 16 44100 2 1 (Some 0).
Definition two_heap : heap := mk_heap (fun q => if q =? 0 then Some [Some 7; Some (-7)] else None) 1.
Example C89_example : heap_ok two_heap /\ shape_ok 2 1 /\ exists h c, BKDataInitCopy two_heap two_frames = Ok (h, c, 0) /\ bd_frames c = Some 1 /\ hp_block h 1 = Some [Some 7; Some (-7)].
Proof.
  split; [split; cbn; [lia|]; intros p P; destruct (p =? 0) eqn:E; [lia|reflexivity]|]. split; [unfold shape_ok; lia|]. eexists. eexists. split; [vm_compute; reflexivity|]. split; vm_compute; reflexivity.
Qed.

(** Disposing a copy does nothing at all: the flag for initialised objects is not set. *)
Theorem C89_copy_never_disposed h o h' c ret : BKDataInitCopy h o = Ok (h', c, ret) -> BKDataDispose h' c = Ok (h', c).
Proof.
  unfold BKDataInitCopy. intros E. assert (I : bd_init c = false).
  { destruct (bd_frames o) as [p|]; [|assert (c = mk_bkdata false (bd_copy o) (bd_isa o) (bd_numBits o) (bd_sampleRate o) (bd_numFrames o) (bd_numChannels o) (bd_pitch o) (bd_sustain o) None) as -> by congruence; reflexivity].
    unfold BKDataSetFrames in E. set (d := mk_bkdata false _ _ _ _ _ _ _ _ None) in E.
    destruct (bd_numFrames o <? 2); [assert (c = d) as -> by congruence; reflexivity|]. destruct ((bd_numChannels o <? 1) || (bd_numChannels o >? BK_MAX_CHANNELS)); [assert (c = d) as -> by congruence; reflexivity|].
    destruct (if bd_copy d then _ else _) as [[h1 q]|]; [|discriminate]. cbn [bind] in E. destruct (copy_block _ _ _ _) as [h2|]; [|discriminate]. cbn [bind] in E.
    assert (c = put_frames d true 16 (bd_sampleRate d) (bd_numFrames o) (bd_numChannels o) (Some q)) as -> by congruence. reflexivity. }
  unfold BKDataDispose. rewrite I. cbn [negb]. destruct (negb (bd_isa c)); reflexivity.
Qed.
(** So its frames are never released, while those of the original are. *)
Theorem C89_leak_refuted : exists h o h1 c h2 h3, heap_ok h /\ BKDataDispose h o = Ok (h1, zero_data false) /\ hp_block h1 0 = None /\
  BKDataInitCopy h o = Ok (h2, c, 0) /\ BKDataDispose h2 c = Ok (h3, c) /\ bd_frames c = Some 1 /\ hp_block h3 1 = Some [Some 7; Some (-7)].
Proof.
  exists two_heap, two_frames. do 4 eexists. split; [exact (proj1 C89_example)|]. split; [vm_compute; reflexivity|]. split; [vm_compute; reflexivity|].
  split; [vm_compute; reflexivity|]. split; [vm_compute; reflexivity|]. split; vm_compute; reflexivity.
Qed.
(** A data object with one frame, loaded from a file, cannot be copied. *)
Theorem C89_single_frame_refuted : exists h d h' d' c, BKDataLoadWAVE 99 false 0 h d (mk_file (wav 1 44100 16 2 [5; 0]) 0 0 false true) = Ok (h', d', 0) /\
  bd_numFrames d' = 1 /\ BKDataInitCopy h' d' = Ok (h', c, BK_INVALID_NUM_FRAMES) /\ bd_frames c = None.
Proof.
  exists (mk_heap (fun _ => None) 0), BKDataInit. do 3 eexists. split; [vm_compute; reflexivity|]. split; [reflexivity|]. split; vm_compute; reflexivity.
Qed.

(** * C91: reducing bits *)

Definition is_frame (f : Z) : Prop := -32768 <= f <= 32767.

(** The values which frames of [bits] bits may have. *)
Definition level (bits v : Z) : Prop :=
  if bits <=? 8 then exists k, 1 <= k <= 2 ^ bits /\ v = Z.quot (k * 32767) (2 ^ bits)
  else exists k, 1 - 2 ^ (bits - 1) <= k <= 2 ^ (bits - 1) /\ v = Z.quot (k * 32767) (2 ^ (bits - 1)).
Fixpoint from (k : Z) (n : nat) : list Z := match n with O => [] | S n => k :: from (k + 1) n end.

Lemma clamp_cases v a b : a <= b -> a <= BKClamp v a b <= b /\ (a <= v <= b -> BKClamp v a b = v) /\ (v < a -> BKClamp v a b = a) /\ (b < v -> BKClamp v a b = b).
Proof. intros L. unfold BKClamp, BKMin, BKMax. repeat match goal with |- context [if ?x then _ else _] => destruct x eqn:? end; lia. Qed.

Ltac bits_cases b := let H := fresh in
  assert (b = 0 \/ b = 1 \/ b = 2 \/ b = 3 \/ b = 4 \/ b = 5 \/ b = 6 \/ b = 7 \/ b = 8 \/ b = 9 \/ b = 10 \/ b = 11 \/ b = 12 \/ b = 13 \/ b = 14 \/ b = 15) as H by lia;
  repeat (destruct H as [-> | H]; [|]); [..|subst b].

(** What one frame becomes: [x] is the frame with its dither, limited to 16 bits. *)
Definition dithered (bits threshold f d : Z) : Z :=
  if BKAbs f >=? threshold then (if bits <=? 8 then f + d else f) else 0.
Definition reduced (bits x : Z) : Z :=
  if bits <=? 8 then Z.quot (- (Z.max (-32767) (x / 2 - 16384) / 2 ^ (15 - bits)) * 32767) (2 ^ bits)
  else Z.quot (- (x / 2 ^ (16 - bits)) * 32767) (2 ^ (bits - 1)).

Lemma reduce_frame_spec bits t f d : 0 <= bits <= 15 -> is_frame f -> Z.abs d <= 1073741824 ->
  reduce_frame bits t f d = Ok (reduced bits (Z.max (-32767) (Z.min 32767 (dithered bits t f d)))) /\
  level bits (reduced bits (Z.max (-32767) (Z.min 32767 (dithered bits t f d)))).
Proof.
  intros B F D. unfold reduce_frame. change (- (32767)) with (-32767). set (y := if BKAbs f >=? t then _ else _).
  assert (Y : y = Ok (dithered bits t f d)).
  { subst y. unfold dithered. destruct (BKAbs f >=? t); [|reflexivity]. destruct (bits <=? 8) eqn:E8; [|reflexivity].
    assert (negb (2 ^ (15 - bits + 1) - 1 =? 0) = true) as ->. { bits_cases bits; reflexivity. } apply chk32_ok. unfold is_frame in F. lia. }
  rewrite Y. cbn [bind]. clear Y y. set (y := dithered bits t f d).
  assert (X : BKClamp y (-32767) 32767 = Z.max (-32767) (Z.min 32767 y)). { destruct (clamp_cases y (-32767) 32767) as (C1 & C2 & C3 & C4); lia. }
  rewrite X. set (x := Z.max (-32767) (Z.min 32767 y)). assert (XB : -32767 <= x <= 32767) by lia. clearbody x. clear X y F D.
  unfold reduced, level. destruct (bits <=? 8) eqn:E8.
  - rewrite (shiftr_div x 1) by lia. change (32768 / 2) with 16384. change (2 ^ 1) with 2.
    assert (C : BKClamp (x / 2 - 16384) (-32767) 32767 = Z.max (-32767) (x / 2 - 16384)).
    { destruct (clamp_cases (x / 2 - 16384) (-32767) 32767) as (C1 & C2 & C3 & C4); [lia|]. assert (x / 2 <= 16383) by (Z.to_euclidean_division_equations; lia). lia. }
    rewrite C. set (w := Z.max (-32767) (x / 2 - 16384)).
    assert (W : -32767 <= w <= -1) by (assert (x / 2 <= 16383) by (Z.to_euclidean_division_equations; lia); lia). clearbody w. clear C.
    rewrite shiftr_div by lia. replace (15 - bits + 1 - 1) with (15 - bits) by lia. replace (15 - (15 - bits)) with bits by lia.
    set (k := - (w / 2 ^ (15 - bits))). assert (K : 1 <= k <= 2 ^ bits). { subst k. bits_cases bits; cbn [Z.pow Z.pow_pos Pos.iter Z.sub]; try lia; cbn; Z.to_euclidean_division_equations; lia. }
    assert (PB : 1 <= 2 ^ bits <= 256) by (bits_cases bits; cbn; lia).
    assert (Q : 0 <= Z.quot (k * 32767) (2 ^ bits) <= 32767). { rewrite Z.quot_div_nonneg by lia. split; [apply Z.div_pos; lia|]. apply Z.div_le_upper_bound; lia. }
    rewrite chk32_ok by lia. cbn [bind]. rewrite s16_id by lia. split; [reflexivity|]. exists k. split; [exact K|reflexivity].
  - rewrite shiftr_div by lia. replace (15 - bits + 1) with (16 - bits) by lia. replace (15 - (16 - bits)) with (bits - 1) by lia.
    set (k := - (x / 2 ^ (16 - bits))). assert (K : 1 - 2 ^ (bits - 1) <= k <= 2 ^ (bits - 1)). { subst k. bits_cases bits; try discriminate; cbn; Z.to_euclidean_division_equations; lia. }
    assert (PB : 256 <= 2 ^ (bits - 1) <= 16384) by (bits_cases bits; try discriminate; cbn; lia).
    assert (Q : -32767 <= Z.quot (k * 32767) (2 ^ (bits - 1)) <= 32767). { Z.to_euclidean_division_equations; nia. }
    rewrite chk32_ok by lia. cbn [bind]. rewrite s16_id by lia. split; [reflexivity|]. exists k. split; [exact K|reflexivity].
Qed.

Fixpoint converted (bits t : Z) (dither : Z -> Z -> Z) (i : Z) (frames : list Z) : list Z :=
  match frames with
  | [] => []
  | f :: frames => reduced bits (Z.max (-32767) (Z.min 32767 (dithered bits t f (dither i f)))) :: converted bits t dither (i + 1) frames
  end.
Lemma reduce_loop_spec bits t dither : 0 <= bits <= 15 -> (forall i s, Z.abs (dither i s) <= 1073741824) ->
  forall frames i s, Forall is_frame frames -> reduce_loop bits t dither i s s frames = Ok (converted bits t dither i frames).
Proof.
  intros B D. induction frames as [|f frames IH]; intros i s F; [reflexivity|]. cbn [reduce_loop converted].
  replace (s - s + f) with f by lia. rewrite (proj1 (reduce_frame_spec bits t f (dither i f) B (Forall_inv F) (D i f))). cbn [bind].
  rewrite (IH (i + 1) f (Forall_inv_tail F)). reflexivity.
Qed.

(** Dithering stays within this bound with every slope from 0 to 1; larger slopes are covered
    as long as the value is one of 32 bits. *)
Definition dither_ok (dither : Z -> Z -> Z) : Prop := forall i s, Z.abs (dither i s) <= 1073741824.
Definition target (bits : Z) : Z := Z.min bits 15.
Lemma target_spec bits : 0 <= bits -> (if bits >? 15 then 15 else bits) = target bits /\ 0 <= target bits <= 15.
Proof. intros B. unfold target. destruct (bits >? 15) eqn:E; lia. Qed.

(** All values lie on the levels, of which there are at most [2 ^ bits]. *)
Theorem C91_levels bits t dither frames : 0 <= bits -> dither_ok dither -> Forall is_frame frames ->
  exists out, BKDataConvert bits t dither frames = Ok out /\ length out = length frames /\ Forall (level (target bits)) out.
Proof.
  intros B D F. unfold BKDataConvert. destruct (target_spec bits B) as [-> T]. rewrite (reduce_loop_spec _ t dither T D frames 0 0 F). eexists. split; [reflexivity|].
  generalize 0 as i. induction frames as [|f frames IH]; intros i; [split; constructor|]. cbn [converted length]. destruct (IH (Forall_inv_tail F) (i + 1)) as [L A].
  split; [congruence|]. constructor; [|exact A]. apply (reduce_frame_spec (target bits) t f (dither i f) T (Forall_inv F) (D i f)).
Qed.
Lemma in_from n : forall k v, k <= v < k + Z.of_nat n -> In v (from k n).
Proof. induction n as [|n IH]; intros k v V; [lia|]. cbn [from In]. destruct (Z.eq_dec k v); [left; assumption|right]. apply IH. lia. Qed.
Lemma from_length n : forall k, length (from k n) = n.
Proof. induction n as [|n IH]; intros k; [reflexivity|]. cbn [from length]. rewrite IH. reflexivity. Qed.
Theorem C91_number_of_levels bits : 0 <= bits <= 15 -> exists l, Z.of_nat (length l) = 2 ^ bits /\ forall v, level bits v -> In v l /\ -32767 <= v <= 32767.
Proof.
  intros B. unfold level. assert (P : 0 < 2 ^ bits) by (apply Z.pow_pos_nonneg; lia). destruct (bits <=? 8) eqn:E8.
  - exists (map (fun k => Z.quot (k * 32767) (2 ^ bits)) (from 1 (Z.to_nat (2 ^ bits)))). split; [rewrite map_length, from_length; lia|].
    intros v (k & K & ->). split; [apply (in_map (fun k => Z.quot (k * 32767) (2 ^ bits))); apply in_from; lia|]. rewrite Z.quot_div_nonneg by lia.
    split; [apply Z.le_trans with 0; [lia|apply Z.div_pos; lia]|apply Z.div_le_upper_bound; lia].
  - assert (Q : 2 ^ bits = 2 * 2 ^ (bits - 1)) by (rewrite <- Z.pow_succ_r by lia; f_equal; lia).
    exists (map (fun k => Z.quot (k * 32767) (2 ^ (bits - 1))) (from (1 - 2 ^ (bits - 1)) (Z.to_nat (2 ^ bits)))). split; [rewrite map_length, from_length; lia|].
    intros v (k & K & ->). split; [apply (in_map (fun k => Z.quot (k * 32767) (2 ^ (bits - 1)))); apply in_from; lia|].
    set (m := 2 ^ (bits - 1)) in *. assert (0 < m) by lia. clearbody m. Z.to_euclidean_division_equations; nia.
Qed.

(** Each value depends only on the frame itself and its dither, on no other frame: the number of
    frames to smooth the dithering over has only the effect of a factor. *)
Theorem C91_no_smoothing bits t dither frames frames' out out' i : 0 <= bits -> dither_ok dither -> Forall is_frame frames -> Forall is_frame frames' ->
  BKDataConvert bits t dither frames = Ok out -> BKDataConvert bits t dither frames' = Ok out' ->
  nth_error frames i = nth_error frames' i -> nth_error out i = nth_error out' i.
Proof.
  intros B D F F' E E' N. unfold BKDataConvert in *. destruct (target_spec bits B) as [TE T]. rewrite TE in *.
  rewrite (reduce_loop_spec _ t dither T D frames 0 0 F) in E. rewrite (reduce_loop_spec _ t dither T D frames' 0 0 F') in E'.
  assert (out = converted (target bits) t dither 0 frames) as -> by congruence. assert (out' = converted (target bits) t dither 0 frames') as -> by congruence.
  clear E E' F F'. revert frames frames' N. generalize 0 as j. induction i as [|i IH]; intros j [|f fs] [|g gs] N; cbn [nth_error converted] in *; try discriminate; try reflexivity.
  - congruence.
  - assert (nth_error gs i = None) as Z0 by (symmetry; exact N). symmetry. clear IH N. revert i j Z0. induction gs as [|g' gs IH]; intros [|i] j Z0; cbn in *; try discriminate; try reflexivity. apply IH. exact Z0.
  - clear IH. revert i j N. induction fs as [|f' fs IH]; intros [|i] j N; cbn in *; try discriminate; try reflexivity. apply IH. exact N.
  - apply IH. exact N.
Qed.

(** How near the values are to the frames: with more than 8 bits a frame comes out with the
    opposite sign, up to one level. *)
Theorem C91_inverted bits t d f v : 9 <= bits <= 15 -> is_frame f -> t <= Z.abs f -> Z.abs d <= 1073741824 -> reduce_frame bits t f d = Ok v -> Z.abs (v + f) <= 2 ^ (16 - bits) + 1.
Proof.
  intros B F T D E. rewrite (proj1 (reduce_frame_spec bits t f d ltac:(lia) F D)) in E. assert (v = reduced bits (Z.max (-32767) (Z.min 32767 (dithered bits t f d)))) as -> by congruence. clear E D.
  unfold dithered, reduced. assert (bits <=? 8 = false) as -> by lia. assert (BKAbs f >=? t = true) as -> by (unfold BKAbs; destruct (f <? 0) eqn:X; lia). unfold is_frame in F.
  set (x := Z.max (-32767) (Z.min 32767 f)). assert (X : x = f \/ (x = -32767 /\ f = -32768)) by lia. assert (XB : -32767 <= x <= 32767) by lia. clearbody x.
  assert (bits = 9 \/ bits = 10 \/ bits = 11 \/ bits = 12 \/ bits = 13 \/ bits = 14 \/ bits = 15) as H by lia.
  repeat (destruct H as [-> | H]; [cbn; Z.to_euclidean_division_equations; lia|]). subst bits. cbn. Z.to_euclidean_division_equations; lia.
Qed.
(** With 8 bits or less it comes out with the opposite sign, halved and raised to the positive range. *)
Theorem C91_raised bits t d f v : 0 <= bits <= 8 -> is_frame f -> t <= Z.abs f -> Z.abs d <= 1073741824 -> reduce_frame bits t f d = Ok v ->
  let x := Z.max (-32767) (Z.min 32767 (f + d)) in -6 <= 2 * v - (32768 - x) <= 2 ^ (16 - bits) + 2.
Proof.
  intros B F T D E. rewrite (proj1 (reduce_frame_spec bits t f d ltac:(lia) F D)) in E. assert (v = reduced bits (Z.max (-32767) (Z.min 32767 (dithered bits t f d)))) as -> by congruence. clear E D.
  unfold dithered, reduced. assert (bits <=? 8 = true) as -> by lia. assert (BKAbs f >=? t = true) as -> by (unfold BKAbs; destruct (f <? 0) eqn:X; lia). cbv zeta.
  set (x := Z.max (-32767) (Z.min 32767 (f + d))). assert (XB : -32767 <= x <= 32767) by lia. clearbody x. set (w := Z.max (-32767) (x / 2 - 16384)).
  assert (W : -32767 <= w <= -1 /\ -1 <= 2 * w - (x - 32768) <= 2) by (subst w; Z.to_euclidean_division_equations; lia). clearbody w.
  assert (DM : 2 ^ (15 - bits) * 2 ^ bits = 32768) by (rewrite <- Z.pow_add_r by lia; replace (15 - bits + bits) with 15 by lia; reflexivity).
  assert (D2 : 2 ^ (16 - bits) = 2 * 2 ^ (15 - bits)) by (rewrite <- Z.pow_succ_r by lia; f_equal; lia). rewrite D2.
  assert (DP : 0 < 2 ^ (15 - bits)) by (apply Z.pow_pos_nonneg; lia). assert (MP : 0 < 2 ^ bits) by (apply Z.pow_pos_nonneg; lia).
  set (D := 2 ^ (15 - bits)) in *. set (M := 2 ^ bits) in *. clearbody D M. clear D2.
  pose proof (Z.div_mod w D ltac:(lia)) as WD. pose proof (Z.mod_pos_bound w D DP) as WM. set (k := - (w / D)) in *.
  assert (K1 : - w <= k * D <= - w + D - 1) by nia. assert (KP : 1 <= k) by nia.
  rewrite Z.quot_div_nonneg by lia. pose proof (Z.div_mod (k * 32767) M ltac:(lia)) as VD. pose proof (Z.mod_pos_bound (k * 32767) M MP) as VM.
  set (v := k * 32767 / M) in *. set (K := k * D) in *.
  assert (V1 : D * (k * 32767) = 32767 * K) by (unfold K; lia). rewrite VD in V1. replace (D * (M * v + (k * 32767) mod M)) with (32768 * v + D * ((k * 32767) mod M)) in V1 by (rewrite <- DM; ring).
  assert (V2 : 0 <= D * ((k * 32767) mod M) < 32768) by nia. set (r := D * ((k * 32767) mod M)) in *.
  assert (KB : 0 <= K <= 32768). { assert (D * M = 32768) by exact DM. assert (k <= M). { apply Z.lt_succ_r. apply Z.mul_lt_mono_pos_r with D; [exact DP|]. nia. } nia. }
  clear - V1 V2 KB K1 W DP. lia.
Qed.
(** The order of frames is reversed. *)
Theorem C91_order bits x y : 0 <= bits <= 15 -> -32767 <= x -> x <= y -> y <= 32767 -> reduced bits y <= reduced bits x.
Proof.
  intros B X XY Y. unfold reduced. assert (P : forall k, 0 <= k -> 0 < 2 ^ k) by (intros k K; apply Z.pow_pos_nonneg; lia). destruct (bits <=? 8) eqn:E8.
  - apply Z.quot_le_mono; [apply P; lia|]. apply Z.mul_le_mono_nonneg_r; [lia|]. apply -> Z.opp_le_mono. apply Z.div_le_mono; [apply P; lia|].
    assert (x / 2 <= y / 2) by (apply Z.div_le_mono; lia). lia.
  - apply Z.quot_le_mono; [apply P; lia|]. apply Z.mul_le_mono_nonneg_r; [lia|]. apply -> Z.opp_le_mono. apply Z.div_le_mono; [apply P; lia|exact XY].
Qed.

Definition no_dither (i s : Z) : Z := 0.
Example C91_example : dither_ok no_dither /\ Forall is_frame [20000; 0; -20000; 300] /\
  BKDataConvert 12 655 no_dither [20000; 0; -20000; 300] = Ok [-19999; 0; 19999; 0] /\ BKDataConvert 4 655 no_dither [32767; 20000; 0; -32767] = Ok [2047; 8191; 16383; 32767].
Proof.
  split; [intros i s; cbn; lia|]. split; [repeat constructor; unfold is_frame; lia|]. split; vm_compute; reflexivity.
Qed.
(** A frame comes out with the opposite sign. *)
Theorem C91_sign_refuted : exists frames, Forall is_frame frames /\ BKDataConvert 12 655 no_dither frames = Ok [-19999; 19999] /\ frames = [20000; -20000].
Proof. exists [20000; -20000]. split; [repeat constructor; unfold is_frame; lia|]. split; [vm_compute; reflexivity|reflexivity]. Qed.
(** Silence becomes a level of half the maximum. *)
Theorem C91_silence_refuted : exists frames, Forall (fun f => f = 0) frames /\ BKDataConvert 8 655 no_dither frames = Ok [16383; 16383].
Proof. exists [0; 0]. split; [repeat constructor|]. vm_compute. reflexivity. Qed.

(** * C92: loading a recording *)

Lemma load_wave_reads n x h d bytes pos ch rate fr out : 0 <= fr * ch < 2147483648 -> 0 <= ch < 4294967296 -> 0 <= fr < 4294967296 ->
  reads n false bytes pos x = Ok (0, (ch, rate, fr), out) ->
  exists h', BKDataLoadWAVE n false x h d (mk_file bytes pos 0 false true) = Ok (h', put_frames d true 16 rate fr ch (Some (hp_next h)), 0) /\
    hp_block h' (hp_next h) = Some (map Some out) /\ others_kept h h' [hp_next h].
Proof.
  intros L C F. unfold reads, BKDataLoadWAVE, BKWaveFileReaderInit, opened. cbn [check_readable f_seekable f_mode negb Z.eqb orb andb].
  change (check_readable (mk_file bytes pos 0 false true)) with 0. change (negb (0 =? 0)) with false. cbn iota.
  destruct (BKWaveFileReaderReadHeader n false (mk_reader (mk_file bytes pos 0 false true) 0 0 0 0 0)) as [[[r ret] [[c0 r0] f0]]|]; [|discriminate]. cbn [bind].
  destruct (negb (ret =? 0)) eqn:R; [intros E; exfalso; assert (ret = 0) as -> by congruence; discriminate|].
  assert (ret = 0) as -> by lia. change (0 <? 0) with false. cbn iota. intros E.
  destruct (BKWaveFileReaderReadFrames n false r (repeat x (Z.to_nat (c0 * f0)))) as [[r' out']|] eqn:RF; [|discriminate]. cbn [bind] in E.
  assert (c0 = ch) as -> by congruence. assert (r0 = rate) as -> by congruence. assert (f0 = fr) as -> by congruence. assert (out' = out) as -> by congruence.
  rewrite chk32_ok by lia. cbn [bind]. assert (fr * ch <? 0 = false) as -> by lia. rewrite Z.mul_comm, RF. cbn [bind malloc]. rewrite (u32_id fr), (u32_id ch) by lia.
  eexists. split; [reflexivity|]. cbn [hp_block]. split; [rewrite Z.eqb_refl; reflexivity|]. intros q Q. cbn [hp_block]. destruct (q =? hp_next h) eqn:E1; [exfalso; apply Q; left; lia|reflexivity].
Qed.

(** Frames that were recorded come back when the file is loaded. *)
Theorem C92_recorded_partial f ch rate ops x h d : writable f -> format_ok ch rate 16 -> history_ok 16 ops ->
  let fs := appended ops in
  2 * Z.of_nat (length fs) < 2147483648 -> Z.of_nat (length fs) mod ch = 0 ->
  exists f', writes false f ch rate 16 ops = Ok f' /\
    forall n, (length (f_bytes f') < n)%nat ->
      exists h', BKDataLoadWAVE n false x h d (mk_file (f_bytes f') (f_pos f) 0 false true) =
                   Ok (h', put_frames d true 16 rate (Z.of_nat (length fs) / ch) ch (Some (hp_next h)), 0) /\
        hp_block h' (hp_next h) = Some (map Some fs) /\ others_kept h h' [hp_next h].
Proof.
  intros W OK H. cbv zeta. intros L M. destruct (C55_round_trip_partial f ch rate ops x W OK H L M) as (f' & E & R). exists f'. split; [exact E|]. intros n N.
  destruct (format_bounds _ _ _ OK) as (C & _). specialize (R n N). set (k := Z.of_nat (length (appended ops))) in *.
  assert (k = ch * (k / ch)) by (apply Z.div_exact; lia). apply load_wave_reads; try lia; try exact R.
Qed.

Example C92_example : writable new_file /\ format_ok 2 44100 16 /\ history_ok 16 stereo_ops /\
  exists h d, BKDataLoadWAVE 99 false 7 (mk_heap (fun _ => None) 0) BKDataInit (mk_file (match writes false new_file 2 44100 16 stereo_ops with Ok f => f_bytes f | _ => [] end) 0 0 false true) = Ok (h, d, 0) /\
    bd_numFrames d = 3 /\ bd_numChannels d = 2 /\ bd_sampleRate d = 44100 /\ bd_frames d = Some 0 /\ hp_block h 0 = Some [Some 1; Some (-2); Some 32767; Some (-32768); Some 300; Some (-300)].
Proof.
  split; [exact (proj1 C55_example)|]. split; [exact (proj1 (proj2 C55_example))|]. split; [exact (proj1 (proj2 (proj2 C55_example)))|].
  eexists. eexists. split; [vm_compute; reflexivity|]. repeat split; vm_compute; reflexivity.
Qed.
(** Also files which break the reader break loading. *)
Theorem C92_broken_file_refuted : exists bytes, BKDataLoadWAVE 99 false 0 (mk_heap (fun _ => None) 0) BKDataInit (mk_file bytes 0 0 false true) = Err EBounds.
Proof. exists (wav 2 44100 16 6 [1; 0; 2; 0; 3; 0]). vm_compute. reflexivity. Qed.

(** * C93: loading raw data *)

(** Loading does the same as setting the bytes from the position of the file on; the file is then
    at its end. *)
Theorem C93_raw_partial big h d bytes pos mode ap ch params : 0 <= pos <= Z.of_nat (length bytes) -> Z.of_nat (length bytes) - pos < 4294967296 ->
  let rest := skipn (Z.to_nat pos) bytes in
  BKDataLoadRaw big h d (mk_file bytes pos mode ap true) ch params =
  let* (h, d, ret) := BKDataSetBytes big h d rest (Z.of_nat (length rest)) ch params in Ok (h, d, ret, mk_file bytes (Z.of_nat (length bytes)) mode ap true).
Proof.
  intros P L. cbv zeta. unfold BKDataLoadRaw, fseek_end, fseek, fread, fsize. cbn [f_bytes f_pos f_mode f_append f_seekable].
  assert (LR : length (skipn (Z.to_nat pos) bytes) = (length bytes - Z.to_nat pos)%nat) by apply skipn_length.
  destruct (Z.of_nat (length bytes) - pos <? 0) eqn:E; [lia|]. rewrite firstn_all2 by lia. rewrite LR, u32_id by lia.
  replace (Z.of_nat (length bytes) - pos) with (Z.of_nat (length bytes - Z.to_nat pos)) by lia.
  replace (pos + Z.of_nat (length bytes - Z.to_nat pos)) with (Z.of_nat (length bytes)) by lia. reflexivity.
Qed.
Example C93_example : exists h d, BKDataLoadRaw false (mk_heap (fun _ => None) 0) BKDataInit (mk_file [9; 9; 0; 255; 255; 0] 2 0 false true) 2 BK_8_BIT_UNSIGNED =
  Ok (h, d, 0, mk_file [9; 9; 0; 255; 255; 0] 6 0 false true) /\ bd_numFrames d = 2 /\ hp_block h 0 = Some [Some 0; Some 32767; Some 32767; Some 0].
Proof. eexists. eexists. split; [vm_compute; reflexivity|]. split; vm_compute; reflexivity. Qed.
(** From 2^32 bytes on only the remainder is converted. *)
Theorem C93_size_refuted : exists bytes h d, Z.of_nat (length bytes) = 4294967296 /\
  BKDataLoadRaw false (mk_heap (fun _ => None) 0) BKDataInit (mk_file bytes 0 0 false true) 1 BK_8_BIT_UNSIGNED = Ok (h, d, 0, mk_file bytes 4294967296 0 false true) /\ bd_numFrames d = 0.
Proof.
  set (b := repeat 0 (Z.to_nat 4294967296)). assert (L : Z.of_nat (length b) = 4294967296) by (unfold b; rewrite repeat_length; lia). clearbody b.
  exists b. unfold BKDataLoadRaw, fseek_end, fseek, fread, fsize. cbn [f_bytes f_pos f_mode f_append f_seekable]. rewrite L. change (4294967296 - 0 <? 0) with false. cbn iota.
  change (skipn (Z.to_nat 0) b) with b. rewrite firstn_all2 by lia. rewrite L. change (u32 (4294967296 - 0)) with 0. change (0 + 4294967296) with 4294967296.
  unfold BKDataSetBytes. assert (S : BKDataSetData false b 0 1 BK_8_BIT_UNSIGNED = Ok (Some (mk_dataset [] 0 1 8), 0)) by reflexivity. rewrite S. cbn [bind].
  do 2 eexists. split; [reflexivity|]. split; [reflexivity|reflexivity].
Qed.

(** * C94: sustain range *)

Definition range_ok (d : bkdata) : Prop := 0 <= fst (bd_sustain d) <= snd (bd_sustain d) /\ snd (bd_sustain d) <= bd_numFrames d.

Lemma sustain_inside n a b s e : 0 <= n < 2147483647 -> sustain_range n a b = Ok (s, e) -> 0 <= s <= e /\ e <= n.
Proof.
  intros N. unfold sustain_range. destruct (if a <? 0 then _ else _) as [o|]; [|discriminate]. cbn [bind]. destruct (if b <? 0 then _ else _) as [p|]; [|discriminate]. cbn [bind].
  destruct (clamp_cases o 0 n ltac:(lia)) as (O & _). destruct (clamp_cases p 0 n ltac:(lia)) as (P & _).
  destruct (BKClamp p 0 n <? BKClamp o 0 n) eqn:X; intros E; assert (H := E); injection H as <- <-; lia.
Qed.
(** A range lies inside of the frames when it is set. *)
Theorem C94_set_partial d values d' : 0 <= bd_numFrames d < 2147483647 -> set_sustain d values = Ok d' -> range_ok d' /\ bd_frames d' = bd_frames d /\ bd_numFrames d' = bd_numFrames d.
Proof.
  intros N. unfold set_sustain, BKDataSetSustainRange. rewrite s32_id by lia. intros E.
  destruct (match values with None => sustain_range (bd_numFrames d) 0 0 | Some (a, b) => if a =? b then sustain_range (bd_numFrames d) 0 0 else sustain_range (bd_numFrames d) a b end) as [[s e]|] eqn:S; [|discriminate].
  cbn [bind] in E. assert (d' = mk_bkdata (bd_init d) (bd_copy d) (bd_isa d) (bd_numBits d) (bd_sampleRate d) (bd_numFrames d) (bd_numChannels d) (bd_pitch d) (s, e) (bd_frames d)) as -> by congruence.
  split; [|split; reflexivity]. unfold range_ok. cbn [bd_sustain fst snd bd_numFrames].
  destruct values as [[a b]|]; [destruct (a =? b)|]; exact (sustain_inside _ _ _ _ _ N S).
Qed.
(** No call that sets frames changes the range or the pitch. *)
Theorem C94_kept h d : 
  (forall src n c copy h' d' ret, BKDataSetFrames h d src n c copy = Ok (h', d', ret) -> bd_sustain d' = bd_sustain d /\ bd_pitch d' = bd_pitch d) /\
  (forall big bytes size ch params h' d' ret, BKDataSetBytes big h d bytes size ch params = Ok (h', d', ret) -> bd_sustain d' = bd_sustain d /\ bd_pitch d' = bd_pitch d) /\
  (forall k big x f h' d' ret, BKDataLoadWAVE k big x h d f = Ok (h', d', ret) -> bd_sustain d' = bd_sustain d /\ bd_pitch d' = bd_pitch d).
Proof.
  split; [|split].
  - intros src n c copy h' d' ret. unfold BKDataSetFrames. destruct (n <? 2); [intros E; assert (d' = d) as -> by congruence; split; reflexivity|].
    destruct ((c <? 1) || (c >? BK_MAX_CHANNELS)); [intros E; assert (d' = d) as -> by congruence; split; reflexivity|]. destruct copy.
    + destruct (if bd_copy d then _ else _) as [[h1 p]|]; [|discriminate]. cbn [bind]. destruct (copy_block _ _ _ _) as [h2|]; [|discriminate]. cbn [bind]. intros E.
      assert (d' = put_frames d true 16 (bd_sampleRate d) n c (Some p)) as -> by congruence. split; reflexivity.
    + destruct (if bd_copy d then _ else _) as [h1|]; [|discriminate]. cbn [bind]. destruct src as [p|]; intros E.
      * assert (d' = put_frames d (bd_copy d) 16 (bd_sampleRate d) n c (Some p)) as -> by congruence. split; reflexivity.
      * assert (d' = d) as -> by congruence. split; reflexivity.
  - intros big bytes size ch params h' d' ret. unfold BKDataSetBytes. destruct (BKDataSetData big bytes size ch params) as [[[s|] r]|]; [| |discriminate]; cbn [bind].
    + destruct (if bd_copy d then _ else _) as [[h1 p]|]; [|discriminate]. cbn [bind]. intros E.
      assert (d' = put_frames d (bd_copy d) (ds_numBits s) (bd_sampleRate d) (ds_numFrames s) (ds_numChannels s) (Some p)) as -> by congruence. split; reflexivity.
    + intros E. assert (d' = d) as -> by congruence. split; reflexivity.
  - intros k big x f h' d' ret. unfold BKDataLoadWAVE. destruct (BKWaveFileReaderInit f) as [[|?|?] [r|]]; try (intros E; assert (d' = d) as -> by congruence; split; reflexivity).
    destruct (BKWaveFileReaderReadHeader k big r) as [[[r1 rt] [[c0 r0] f0]]|]; [|discriminate]. cbn [bind]. destruct (rt <? 0); [intros E; assert (d' = d) as -> by congruence; split; reflexivity|].
    destruct (chk32 (f0 * c0)) as [m|]; [|discriminate]. cbn [bind]. destruct (m <? 0); [intros E; assert (d' = d) as -> by congruence; split; reflexivity|].
    destruct (BKWaveFileReaderReadFrames _ _ _ _) as [[r2 out]|]; [|discriminate]. cbn [bind malloc]. intros E.
    assert (d' = put_frames d true 16 r0 (u32 f0) (u32 c0) (Some (hp_next h))) as -> by congruence. split; reflexivity.
Qed.
Example C94_example : exists d, set_sustain (put_frames BKDataInit false 16 0 100 1 (Some (-1))) (Some (10, -1)) = Ok d /\ bd_sustain d = (10, 100) /\ range_ok d.
Proof. eexists. split; [vm_compute; reflexivity|]. split; [reflexivity|]. unfold range_ok. cbn. lia. Qed.
(** So with fewer frames the range may lie outside of them. *)
Theorem C94_fewer_frames_refuted : exists h d d1 h2 d2, range_ok d /\ set_sustain d (Some (10, 20)) = Ok d1 /\ range_ok d1 /\
  BKDataSetFrames h d1 (Some (-1)) 2 1 false = Ok (h2, d2, 0) /\ bd_numFrames d2 = 2 /\ bd_sustain d2 = (10, 20).
Proof.
  exists (client_block [Some 1; Some 2]), (put_frames BKDataInit false 16 0 100 1 (Some (-1))). do 3 eexists. split; [unfold range_ok; cbn; lia|].
  split; [vm_compute; reflexivity|]. split; [unfold range_ok; cbn; lia|]. split; [vm_compute; reflexivity|]. split; reflexivity.
Qed.

(** * C95: rejected calls *)

(** Calls which return an error leave object and memory as they were; for frames that are not
    copied this needs a pointer to frames. *)
Theorem C95_rejected_partial h d h' d' ret : ret <> 0 ->
  (forall src n c copy, copy = true \/ src <> None -> BKDataSetFrames h d src n c copy = Ok (h', d', ret) -> h' = h /\ d' = d) /\
  (forall big bytes ch params, BKDataSetBytes big h d bytes (Z.of_nat (length bytes)) ch params = Ok (h', d', ret) -> h' = h /\ d' = d) /\
  (forall k big x f, BKDataLoadWAVE k big x h d f = Ok (h', d', ret) -> h' = h /\ d' = d).
Proof.
  intros R. split; [|split].
  - intros src n c copy S. unfold BKDataSetFrames. destruct (n <? 2); [intros E; split; congruence|].
    destruct ((c <? 1) || (c >? BK_MAX_CHANNELS)); [intros E; split; congruence|]. destruct copy.
    + destruct (if bd_copy d then _ else _) as [[h1 p]|]; [|discriminate]. cbn [bind]. destruct (copy_block _ _ _ _) as [h2|]; [|discriminate]. cbn [bind]. intros E. exfalso. congruence.
    + destruct (if bd_copy d then _ else _) as [h1|]; [|discriminate]. cbn [bind]. destruct src as [p|]; intros E; exfalso; [congruence|]. destruct S; congruence.
  - intros big bytes ch params. unfold BKDataSetBytes, BKDataSetData. destruct ((ch <? 1) || (ch >? BK_MAX_CHANNELS)); [intros E; split; cbn [bind] in E; congruence|].
    destruct (BKDataNumBitsFromParam _) as [[nb sg]|]; [|intros E; split; cbn [bind] in E; congruence].
    destruct (_ <? 0); [intros E; split; cbn [bind] in E; congruence|]. destruct (BKDataConvertFromBits _ _ _ _ _ _ _ _) as [out|]; [|discriminate]. cbn [bind].
    destruct (if bd_copy d then _ else _) as [[h1 p]|]; [|discriminate]. cbn [bind]. intros E. exfalso. congruence.
  - intros k big x f. unfold BKDataLoadWAVE. destruct (BKWaveFileReaderInit f) as [[|?|?] [r|]]; try (intros E; split; congruence).
    destruct (BKWaveFileReaderReadHeader k big r) as [[[r1 rt] [[c0 r0] f0]]|]; [|discriminate]. cbn [bind]. destruct (rt <? 0); [intros E; split; congruence|].
    destruct (chk32 (f0 * c0)) as [m|]; [|discriminate]. cbn [bind]. destruct (m <? 0); [intros E; split; congruence|].
    destruct (BKWaveFileReaderReadFrames _ _ _ _) as [[r2 out]|]; [|discriminate]. cbn [bind malloc]. intros E. exfalso. congruence.
Qed.
Example C95_example : BKDataSetFrames two_heap two_frames (Some 0) 1 1 true = Ok (two_heap, two_frames, BK_INVALID_NUM_FRAMES) /\
  BKDataSetBytes false two_heap two_frames [1; 2] 2 9 BK_8_BIT_UNSIGNED = Ok (two_heap, two_frames, BK_INVALID_NUM_CHANNELS) /\
  BKDataLoadWAVE 99 false 0 two_heap two_frames (mk_file [1; 2; 3] 0 0 false true) = Ok (two_heap, two_frames, BK_INVALID_RETURN_VALUE).
Proof. repeat split; vm_compute; reflexivity. Qed.
(** Without frames the call is rejected after the frames of the object were released; disposing
    the object then releases them again. *)
Theorem C95_no_frames_refuted : exists h d h', heap_ok h /\ own_ok h d /\ BKDataSetFrames h d None 2 1 false = Ok (h', d, -1) /\
  bd_frames d = Some 0 /\ hp_block h' 0 = None /\ BKDataDispose h' d = Err EFreed.
Proof.
  exists two_heap, two_frames. eexists. split; [exact (proj1 C89_example)|]. split; [intros _; cbn; split; [lia|discriminate]|]. split; [vm_compute; reflexivity|].
  split; [reflexivity|]. split; vm_compute; reflexivity.
Qed.

Print Assumptions C90_copied_partial.
Print Assumptions C90_borrowed_partial.
Print Assumptions C90_size_refuted.
Print Assumptions C90_own_frames_refuted.
Print Assumptions C89_copied_partial.
Print Assumptions C89_copied_empty.
Print Assumptions C89_copy_never_disposed.
Print Assumptions C89_leak_refuted.
Print Assumptions C89_single_frame_refuted.
Print Assumptions C91_levels.
Print Assumptions C91_number_of_levels.
Print Assumptions C91_no_smoothing.
Print Assumptions C91_inverted.
Print Assumptions C91_raised.
Print Assumptions C91_order.
Print Assumptions C91_sign_refuted.
Print Assumptions C91_silence_refuted.
Print Assumptions C92_recorded_partial.
Print Assumptions C92_broken_file_refuted.
Print Assumptions C93_raw_partial.
Print Assumptions C93_size_refuted.
Print Assumptions C94_set_partial.
Print Assumptions C94_kept.
Print Assumptions C94_fewer_frames_refuted.
Print Assumptions C95_rejected_partial.
Print Assumptions C95_no_frames_refuted.
