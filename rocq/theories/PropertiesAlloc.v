(** Properties of failing allocations: C107, C108. *)
From Verif Require Import CInt CIntFacts DataModel WaveModel DataObjectModel PropertiesDataObject AllocModel ContextSame.
Open Scope Z_scope.
Ltac Zify.zify_post_hook ::= idtac.

(** Some answer which the call got from the allocator was a null pointer: [a] were the answers
    before and [a'] after the call. *)
Definition refused (a a' : answers) : Prop := exists got, a = got ++ a' /\ In false got.
Definition same_blocks (h h' : heap) : Prop := forall q, hp_block h' q = hp_block h q.

Lemma same_suffix {A} (l m n : list A) : l ++ n = m ++ n -> l = m.
Proof. intros E. apply (app_inv_tail n). exact E. Qed.
Lemma not_refused a : ~ refused a a.
Proof. intros (got & E & I). apply (same_suffix [] got) in E. subst got. destruct I. Qed.

(** ** The allocator *)

Lemma try_malloc_inv a h b a1 h1 p : try_malloc a h b = (a1, h1, p) ->
  match p with
  | Some p => h1 = fst (malloc h b) /\ p = hp_next h /\ (a = a1 \/ a = true :: a1)
  | None => h1 = h /\ a = false :: a1
  end.
Proof.
  unfold try_malloc, next_answer. destruct a as [|[|] a]; cbn; intros E.
  - assert (p = Some (hp_next h)) as -> by congruence. split; [congruence|]. split; [reflexivity|]. left. congruence.
  - assert (p = Some (hp_next h)) as -> by congruence. split; [congruence|]. split; [reflexivity|]. right. congruence.
  - assert (p = None) as -> by congruence. split; congruence.
Qed.
Lemma granted_not_refused a a1 : a = a1 \/ a = true :: a1 -> ~ refused a a1.
Proof.
  intros [->| ->]; [apply not_refused|]. intros (got & E & I). change (true :: a1) with ([true] ++ a1) in E. apply same_suffix in E. subst got.
  destruct I as [X|[]]. discriminate.
Qed.
Lemma try_realloc_inv zf a h p n a1 h1 q : try_realloc zf a h p n = Ok (a1, h1, q) -> refused a a1 -> h1 = h /\ q = None.
Proof.
  unfold try_realloc. destruct p as [p|].
  - destruct (zf && Nat.eqb n 0).
    + intros E R. binv E h2 E2. assert (a1 = a) as -> by congruence. destruct (not_refused _ R).
    + unfold next_answer. destruct a as [|[|] a].
      * intros E R. binv E h2 E2. destruct h2 as [h2 q2]. assert (a1 = []) as -> by congruence. destruct (not_refused _ R).
      * intros E R. binv E h2 E2. destruct h2 as [h2 q2]. assert (a1 = a) as -> by congruence. destruct (granted_not_refused (true :: a) a); auto.
      * intros E R. split; congruence.
  - intros E R. assert (M : try_malloc a h (repeat None n) = (a1, h1, q)) by congruence. apply try_malloc_inv in M. destruct q as [q|].
    + destruct M as (_ & _ & M). destruct (granted_not_refused _ _ M R).
    + split; [apply M|reflexivity].
Qed.
Lemma either_inv zf a h d n a1 h1 q :
  (if bd_copy d then try_realloc zf a h (bd_frames d) n else Ok (try_malloc a h (repeat None n))) = Ok (a1, h1, q) -> refused a a1 -> h1 = h /\ q = None.
Proof.
  destruct (bd_copy d); [apply try_realloc_inv|]. intros E R. assert (M : try_malloc a h (repeat None n) = (a1, h1, q)) by congruence. apply try_malloc_inv in M. destruct q as [q|].
  - destruct M as (_ & _ & M). destruct (granted_not_refused _ _ M R).
  - split; [apply M|reflexivity].
Qed.

(** ** Functions *)

Lemma set_frames_refused zf a h d frames n c copy a1 h1 d1 ret : set_frames zf a h d frames n c copy = Ok (a1, h1, d1, ret) -> refused a a1 ->
  h1 = h /\ d1 = d /\ ret < 0.
Proof.
  unfold set_frames. destruct (n <? 2); [intros E R; assert (a1 = a) as -> by congruence; destruct (not_refused _ R)|].
  destruct ((c <? 1) || (c >? BK_MAX_CHANNELS)); [intros E R; assert (a1 = a) as -> by congruence; destruct (not_refused _ R)|].
  destruct copy.
  - intros E R. binv E x E1. destruct x as [[a2 h2] q]. destruct q as [q|].
    + binv E h3 E2. assert (a2 = a1) as -> by congruence. destruct (either_inv _ _ _ _ _ _ _ _ E1 R). discriminate.
    + assert (a2 = a1) as -> by congruence. destruct (either_inv _ _ _ _ _ _ _ _ E1 R) as [H _]. split; [congruence|]. split; [congruence|]. assert (ret = -1) by congruence. lia.
  - intros E R. binv E h2 E1. destruct frames; assert (a1 = a) as -> by congruence; destruct (not_refused _ R).
Qed.
Lemma set_bytes_refused zf big a h d bytes size c params a1 h1 d1 ret : set_bytes zf big a h d bytes size c params = Ok (a1, h1, d1, ret) -> refused a a1 ->
  h1 = h /\ d1 = d /\ ret < 0.
Proof.
  unfold set_bytes. intros E R. binv E x E1. destruct x as [[s|] rt]; [|assert (a1 = a) as -> by congruence; destruct (not_refused _ R)].
  binv E y E2. destruct y as [[a2 h2] q]. destruct q as [q|]; assert (a2 = a1) as -> by congruence; destruct (either_inv _ _ _ _ _ _ _ _ E2 R) as [H Q]; [discriminate|].
  split; [congruence|]. split; [congruence|]. assert (ret = BK_ALLOCATION_ERROR) as -> by congruence. reflexivity.
Qed.
Lemma load_wave_refused fuel big x a h d f a1 h1 d1 ret : load_wave fuel big x a h d f = Ok (a1, h1, d1, ret) -> refused a a1 ->
  h1 = h /\ d1 = d /\ ret < 0.
Proof.
  unfold load_wave. intros E R. destruct (BKWaveFileReaderInit f) as [[|?|?] [r|]]; try (assert (a1 = a) as -> by congruence; destruct (not_refused _ R)).
  binv E y E1. destruct y as [[r1 rt] [[c0 r0] f0]]. destruct (rt <? 0); [assert (a1 = a) as -> by congruence; destruct (not_refused _ R)|].
  binv E m E2. destruct (m <? 0); [assert (a1 = a) as -> by congruence; destruct (not_refused _ R)|].
  destruct (try_malloc a h (repeat (Some x) (Z.to_nat m))) as [[a2 h2] q] eqn:M. apply try_malloc_inv in M. destruct q as [q|].
  - binv E z E3. destruct z as [r2 out]. assert (a2 = a1) as -> by congruence. destruct M as (_ & _ & M). destruct (granted_not_refused _ _ M R).
  - destruct M as [M _]. split; [congruence|]. split; [congruence|]. assert (ret = BK_ALLOCATION_ERROR) as -> by congruence. reflexivity.
Qed.
Lemma promote_refused a h d a1 h1 d1 ret : promote a h d = Ok (a1, h1, d1, ret) -> refused a a1 -> h1 = h /\ d1 = d /\ ret < 0.
Proof.
  unfold promote. intros E R. destruct (bd_copy d); [assert (a1 = a) as -> by congruence; destruct (not_refused _ R)|].
  destruct (try_malloc a h _) as [[a2 h2] q] eqn:M. apply try_malloc_inv in M. destruct q as [q|].
  - binv E h3 E3. assert (a2 = a1) as -> by congruence. destruct M as (_ & _ & M). destruct (granted_not_refused _ _ M R).
  - destruct M as [M _]. split; [congruence|]. split; [congruence|]. assert (ret = BK_ALLOCATION_ERROR) as -> by congruence. reflexivity.
Qed.
Lemma convert_refused reduce a h d a1 h1 d1 ret : convert reduce a h d = Ok (a1, h1, d1, ret) -> refused a a1 -> h1 = h /\ d1 = d /\ ret < 0.
Proof.
  unfold convert. destruct (bd_copy d).
  - intros E R. cbn [bind] in E. destruct (bd_frames d) as [p|]; [|discriminate]. binv E src E1. destruct (Nat.ltb _ _); [discriminate|]. binv E dst E2.
    assert (a1 = a) as -> by congruence. destruct (not_refused _ R).
  - intros E R. cbn [bind] in E. destruct (try_malloc a h _) as [[a2 h2] q] eqn:M. apply try_malloc_inv in M. destruct q as [q|].
    + binv E src E1. destruct (Nat.ltb _ _); [discriminate|]. binv E dst E2. assert (a2 = a1) as -> by congruence. destruct M as (_ & _ & M). destruct (granted_not_refused _ _ M R).
    + destruct M as [M _]. split; [congruence|]. split; [congruence|]. assert (ret = -1) by congruence. lia.
Qed.

(** Files with raw frames: the memory for the bytes is always given back. *)
Lemma refused_later a b c : (a = b \/ a = true :: b) -> refused a c -> (exists got, b = got ++ c) -> refused b c.
Proof.
  intros M (got & E & I) (got2 & E2). exists got2. split; [exact E2|]. destruct M as [->| ->]; [rewrite E2 in E; apply same_suffix in E; subst; exact I|].
  rewrite E2 in E. change (true :: got2 ++ c) with ((true :: got2) ++ c) in E. apply same_suffix in E. subst got. destruct I as [X|I]; [discriminate|exact I].
Qed.
Lemma try_realloc_suffix zf a h p n a1 h1 q : try_realloc zf a h p n = Ok (a1, h1, q) -> exists got, a = got ++ a1.
Proof.
  unfold try_realloc. destruct p as [p|].
  - destruct (zf && Nat.eqb n 0); [intros E; binv E h2 E2; exists []; cbn; congruence|]. unfold next_answer. destruct a as [|[|] a]; intros E.
    + binv E h2 E2. destruct h2. exists []. cbn. congruence.
    + binv E h2 E2. destruct h2. exists [true]. cbn. congruence.
    + exists [false]. cbn. congruence.
  - intros E. assert (M : try_malloc a h (repeat None n) = (a1, h1, q)) by congruence. apply try_malloc_inv in M. destruct q as [q|].
    + destruct M as (_ & _ & [->| ->]); [exists []|exists [true]]; reflexivity.
    + destruct M as [_ ->]. exists [false]. reflexivity.
Qed.
Lemma set_bytes_suffix zf big a h d bytes size c params a1 h1 d1 ret : set_bytes zf big a h d bytes size c params = Ok (a1, h1, d1, ret) -> exists got, a = got ++ a1.
Proof.
  unfold set_bytes. intros E. binv E x E1. destruct x as [[s|] rt]; [|exists []; cbn; congruence].
  binv E y E2. destruct y as [[a2 h2] q]. assert (a2 = a1) as -> by (destruct q; congruence). destruct (bd_copy d); [apply (try_realloc_suffix _ _ _ _ _ _ _ _ E2)|].
  assert (M : try_malloc a h (repeat None (length (ds_frames s))) = (a1, h2, q)) by congruence. apply try_malloc_inv in M. destruct q as [q|].
  - destruct M as (_ & _ & [->| ->]); [exists []|exists [true]]; reflexivity.
  - destruct M as [_ ->]. exists [false]. reflexivity.
Qed.
Lemma load_raw_refused zf big a h d f c params a1 h1 d1 ret f1 : heap_ok h -> load_raw zf big a h d f c params = Ok (a1, h1, d1, ret, f1) -> refused a a1 ->
  same_blocks h h1 /\ d1 = d /\ ret < 0.
Proof.
  intros (H0 & HN). unfold load_raw. destruct (_ <? 0); [intros E R; assert (a1 = a) as -> by congruence; destruct (not_refused _ R)|].
  destruct (try_malloc a h _) as [[a2 h2] t] eqn:M. apply try_malloc_inv in M. destruct t as [t|].
  - destruct (fread _ _) as [bytes f2]. intros E R. binv E x E1. destruct x as [[[a3 h3] d3] rt]. binv E h4 E4. assert (a3 = a1) as -> by congruence. destruct M as (M1 & M2 & M3).
    destruct (set_bytes_refused _ _ _ _ _ _ _ _ _ _ _ _ _ E1 (refused_later _ _ _ M3 R (set_bytes_suffix _ _ _ _ _ _ _ _ _ _ _ _ _ E1))) as (-> & -> & L).
    split; [|split; [congruence|]; assert (ret = rt) as -> by congruence; exact L]. assert (h1 = h4) as -> by congruence. subst h2 t. unfold hfree, hget in E4. cbn [hset hp_block malloc fst hp_next] in E4.
    assert (hp_next h <? 0 = false) as X by lia. rewrite X, Z.eqb_refl in E4. cbn [bind] in E4. assert (h4 = hset (hset (fst (malloc h (repeat None (Z.to_nat (fsize (fseek_end f) - f_pos f))))) (hp_next h) (Some (map Some bytes))) (hp_next h) None) as -> by (unfold malloc, fst; congruence).
    intros q. cbn [hset hp_block malloc fst]. destruct (q =? hp_next h) eqn:Q; [|reflexivity]. symmetry. apply HN. lia.
  - destruct M as [M _]. intros E R. split; [assert (h1 = h) as -> by congruence; intros q; reflexivity|]. split; [congruence|]. assert (ret = BK_ALLOCATION_ERROR) as -> by congruence. reflexivity.
Qed.

(** * C108: a refused allocation changes nothing *)

(** Whichever allocation of a call is refused, the call returns an error, the object is as it was
    and so is all memory: nothing is lost, nothing is released. *)
Theorem C108_refused_partial zf fuel big x a h d c a' h' d' ret : heap_ok h ->
  dcalled zf fuel big x a h d c = Ok (a', h', d', ret) -> refused a a' -> same_blocks h h' /\ d' = d /\ ret < 0.
Proof.
  intros HO. destruct c as [frames n ch copy|bytes size ch params|f ch params|f| |reduce]; cbn [dcalled]; intros E R.
  - destruct (set_frames_refused _ _ _ _ _ _ _ _ _ _ _ _ E R) as (-> & X). split; [intros q; reflexivity|exact X].
  - destruct (set_bytes_refused _ _ _ _ _ _ _ _ _ _ _ _ _ E R) as (-> & X). split; [intros q; reflexivity|exact X].
  - binv E y E1. destruct y as [[[[a1 h1] d1] rt] f1]. assert (a1 = a') as -> by congruence. assert (h1 = h') as -> by congruence. assert (d1 = d') as -> by congruence. assert (rt = ret) as -> by congruence.
    exact (load_raw_refused _ _ _ _ _ _ _ _ _ _ _ _ _ HO E1 R).
  - destruct (load_wave_refused _ _ _ _ _ _ _ _ _ _ _ E R) as (-> & X). split; [intros q; reflexivity|exact X].
  - destruct (promote_refused _ _ _ _ _ _ _ E R) as (-> & X). split; [intros q; reflexivity|exact X].
  - destruct (convert_refused _ _ _ _ _ _ _ _ E R) as (-> & X). split; [intros q; reflexivity|exact X].
Qed.
(** Loading raw frames takes two allocations; here the second is refused. *)
Definition seen_block (r : res (answers * heap * bkdata * Z)) (p : Z) : option (answers * option (list (option Z)) * bkdata * Z) :=
  match r with Ok (a, h, d, ret) => Some (a, hp_block h p, d, ret) | Err _ => None end.
Definition raw_file : file := mk_file [1; 2; 3; 4] 0 0 false true.
Example C108_example : heap_ok two_heap /\ refused [true; false; true] [true] /\
  seen_block (dcalled true 99 false 0 [true; false; true] two_heap two_frames (DRaw raw_file 1 BK_8_BIT_UNSIGNED)) 0 = Some ([true], Some [Some 7; Some (-7)], two_frames, BK_ALLOCATION_ERROR) /\
  seen_block (dcalled true 99 false 0 [true; false; true] two_heap two_frames (DRaw raw_file 1 BK_8_BIT_UNSIGNED)) 1 = Some ([true], None, two_frames, BK_ALLOCATION_ERROR) /\
  seen_block (dcalled true 99 false 0 [false] two_heap two_frames (DFrames (Some (-1)) 2 1 true)) 0 = Some ([], Some [Some 7; Some (-7)], two_frames, -1).
Proof.
  split; [split; cbn; [lia|]; intros p P; destruct (p =? 0) eqn:E; [lia|reflexivity]|]. split; [exists [true; false]; split; [reflexivity|right; left; reflexivity]|].
  split; [|split]; vm_compute; reflexivity.
Qed.

(** So an object that could be disposed before can be disposed after, with the same memory left. *)
Theorem C108_disposable zf fuel big x a h d c a' h' d' ret h1 d1 : heap_ok h ->
  dcalled zf fuel big x a h d c = Ok (a', h', d', ret) -> refused a a' -> BKDataDispose h d = Ok (h1, d1) ->
  exists h2, BKDataDispose h' d' = Ok (h2, d1) /\ same_blocks h1 h2.
Proof.
  intros HO E R D. destruct (C108_refused_partial _ _ _ _ _ _ _ _ _ _ _ _ HO E R) as (S & -> & _). unfold BKDataDispose in *.
  destruct (negb (bd_isa d)); [exists h'; assert (d1 = d) as -> by congruence; split; [reflexivity|]; assert (h1 = h) as -> by congruence; exact S|].
  destruct (negb (bd_init d)); [exists h'; assert (d1 = d) as -> by congruence; split; [reflexivity|]; assert (h1 = h) as -> by congruence; exact S|].
  destruct (bd_copy d); [|cbn [bind] in *; exists h'; assert (d1 = zero_data false) as -> by congruence; split; [reflexivity|]; assert (h1 = h) as -> by congruence; exact S].
  destruct (bd_frames d) as [p|]; cbn [hfree] in *; [|cbn [bind] in *; exists h'; assert (d1 = zero_data false) as -> by congruence; split; [reflexivity|]; assert (h1 = h) as -> by congruence; exact S].
  destruct (p <? 0); [discriminate|]. unfold hget in *. rewrite (S p). destruct (hp_block h p); [|discriminate]. cbn [bind] in *. eexists. assert (d1 = zero_data false) as -> by congruence. split; [reflexivity|].
  assert (h1 = hset h p None) as -> by congruence. intros q. cbn [hset hp_block]. destruct (q =? p); [reflexivity|apply S].
Qed.
Example C108_disposable_example : exists h1, BKDataDispose two_heap two_frames = Ok (h1, zero_data false) /\ hp_block h1 0 = None.
Proof. eexists. split; [reflexivity|]. reflexivity. Qed.

(** If all allocations are granted and no block is resized to nothing the calls are those of
    DataObjectModel.v. *)
Lemma granted_head a : ~ In false a -> fst (next_answer a) = true.
Proof. intros G. destruct a as [|[|] a]; [reflexivity|reflexivity|]. exfalso. apply G. left. reflexivity. Qed.
Theorem C108_granted a h d : ~ In false a ->
  (forall frames n c copy, (let* (a', h', d', ret) := set_frames false a h d frames n c copy in Ok (h', d', ret)) = BKDataSetFrames h d frames n c copy) /\
  (forall big bytes size c params, (let* (a', h', d', ret) := set_bytes false big a h d bytes size c params in Ok (h', d', ret)) = BKDataSetBytes big h d bytes size c params).
Proof.
  intros G. apply granted_head in G. assert (A : forall n, (let* (a', h', p) := (if bd_copy d then try_realloc false a h (bd_frames d) n else Ok (try_malloc a h (repeat None n))) in Ok (h', p)) =
    (let* (h', p) := (if bd_copy d then realloc h (bd_frames d) n else Ok (malloc h (repeat None n))) in Ok (h', Some p))).
  { intros n. unfold try_realloc, try_malloc. destruct (next_answer a) as [y a1]. cbn in G. subst y. cbn [andb]. destruct (bd_copy d); [|reflexivity]. destruct (bd_frames d) as [p|]; [|].
    - destruct (realloc h (Some p) n) as [[h1 q]|]; reflexivity.
    - unfold realloc, hfree. cbn [bind]. unfold resized. rewrite firstn_nil. cbn [length app]. rewrite Nat.sub_0_r. reflexivity. }
  split.
  - intros. unfold set_frames, BKDataSetFrames. destruct (n <? 2); [reflexivity|]. destruct ((c <? 1) || (c >? BK_MAX_CHANNELS)); [reflexivity|].
    destruct copy; [|destruct (if bd_copy d then hfree h (bd_frames d) else Ok h); [|reflexivity]; destruct frames; reflexivity].
    specialize (A (Z.to_nat (u32 (u32 (n * c) * 2) / 2))). destruct (if bd_copy d then try_realloc _ _ _ _ _ else _) as [[[a1 h1] p]|];
      destruct (if bd_copy d then realloc _ _ _ else _) as [[h2 p2]|]; cbn [bind] in *; [|congruence|congruence|congruence].
    assert (p = Some p2) as -> by congruence. assert (h2 = h1) as -> by congruence. destruct (copy_block _ _ _ _); reflexivity.
  - intros. unfold set_bytes, BKDataSetBytes. destruct (BKDataSetData _ _ _ _ _) as [[[s|] rt]|]; cbn [bind]; [|reflexivity|reflexivity].
    specialize (A (length (ds_frames s))). destruct (if bd_copy d then try_realloc _ _ _ _ _ else _) as [[[a1 h1] p]|];
      destruct (if bd_copy d then realloc _ _ _ else _) as [[h2 p2]|]; cbn [bind] in *; [|congruence|congruence|congruence].
    assert (p = Some p2) as -> by congruence. assert (h2 = h1) as -> by congruence. reflexivity.
Qed.
Example C108_granted_example : ~ In false [true; true] /\
  seen_block (set_bytes false false [true; true] two_heap two_frames [1; 2; 3] 3 1 BK_8_BIT_SIGNED) 1 =
  Some ([true], Some [Some 258; Some 516; Some 774], put_frames two_frames true 8 44100 3 1 (Some 1), 0).
Proof. split; [|vm_compute; reflexivity]. intros [I|[I|[]]]; discriminate. Qed.

(** Whether loading raw frames succeeds or not, the memory for the bytes is given back: all
    memory that is left was there before or belongs to the object. *)
Theorem C108_raw_no_leak zf big a h d f c params a' h' d' ret f' q : heap_ok h ->
  load_raw zf big a h d f c params = Ok (a', h', d', ret, f') -> hp_block h' q <> None -> hp_block h q <> None \/ bd_frames d' = Some q.
Proof.
  intros (H0 & HN). unfold load_raw. destruct (_ <? 0); [intros E L; assert (h' = h) as -> by congruence; left; exact L|].
  destruct (try_malloc a h _) as [[a2 h2] t] eqn:M. apply try_malloc_inv in M. destruct t as [t|]; [|destruct M as [-> _]; intros E L; assert (h' = h) as -> by congruence; left; exact L].
  destruct (fread _ _) as [bytes f2]. intros E L. binv E x E1. destruct x as [[[a3 h3] d3] rt]. binv E h4 E4. destruct M as (-> & -> & _).
  assert (h4 = h') as -> by congruence. assert (d3 = d') as -> by congruence. clear E. set (h0 := hset (fst (malloc h _)) (hp_next h) _) in E1.
  assert (T : q <> hp_next h /\ hp_block h3 q <> None).
  { unfold hfree in E4. destruct (hp_next h <? 0); [discriminate|]. binv E4 z E5. assert (h' = hset h3 (hp_next h) None) as -> by congruence. cbn [hset hp_block] in L. destruct (q =? hp_next h) eqn:Q; [congruence|]. split; [lia|exact L]. }
  destruct T as [QN L3]. clear L E4.
  assert (B0 : hp_block h0 q = hp_block h q) by (unfold h0; cbn [hset malloc fst hp_block]; destruct (q =? hp_next h) eqn:Q; [lia|reflexivity]).
  unfold set_bytes in E1. binv E1 y E2. destruct y as [[s|] r2]; [|assert (h3 = h0) as -> by congruence; left; rewrite <- B0; exact L3].
  binv E1 z E3. destruct z as [[a4 h4] p].
  assert (K : hp_block h4 q <> None -> hp_block h0 q <> None \/ p = Some q).
  { assert (TM : forall b a4 h4 p, try_malloc a2 h0 b = (a4, h4, p) -> hp_block h4 q <> None -> hp_block h0 q <> None \/ p = Some q).
    { intros b aa hh pp X Y. apply try_malloc_inv in X. destruct pp as [pp|]; [|destruct X as [-> _]; left; exact Y]. destruct X as (-> & -> & _). cbn [malloc fst hp_block] in Y.
      destruct (q =? hp_next h0) eqn:Q; [right; f_equal; lia|left; exact Y]. }
    destruct (bd_copy d); [|intros Y; apply (TM (repeat None (length (ds_frames s))) a4 h4 p); [congruence|exact Y]].
    unfold try_realloc in E3. destruct (bd_frames d) as [old|]; [|intros Y; apply (TM (repeat None (length (ds_frames s))) a4 h4 p); [congruence|exact Y]].
    assert (FR : forall hh, hfree h0 (Some old) = Ok hh -> hp_block hh q <> None -> hp_block h0 q <> None).
    { intros hh X Y. unfold hfree in X. destruct (old <? 0); [discriminate|]. binv X v X1. assert (hh = hset h0 old None) as -> by congruence. cbn [hset hp_block] in Y. destruct (q =? old); [congruence|exact Y]. }
    destruct (zf && _); [binv E3 v E5; intros Y; left; apply (FR v E5); assert (h4 = v) as -> by congruence; exact Y|].
    destruct (next_answer a2) as [yes a5]. destruct yes; [|intros Y; left; assert (h4 = h0) as -> by congruence; exact Y].
    binv E3 v E5. destruct v as [h5 q5]. intros Y. unfold realloc in E5. binv E5 w E6. binv E5 h6 E7. assert (h4 = h5) as -> by congruence. assert (p = Some q5) as -> by congruence. unfold malloc in E5. assert (q5 = hp_next h6) as -> by congruence.
    assert (X : hp_block h5 q = hp_block (fst (malloc h6 (resized (length (ds_frames s)) w))) q) by (unfold malloc, fst; congruence). rewrite X in Y. cbn [malloc fst hp_block] in Y. destruct (q =? hp_next h6) eqn:Q; [right; f_equal; lia|left; apply (FR h6 E7); exact Y]. }
  destruct p as [p|]; [|assert (h3 = h4) as -> by congruence; left; rewrite <- B0; destruct (K L3) as [X|X]; [exact X|discriminate]].
  assert (d' = put_frames d (bd_copy d) (ds_numBits s) (bd_sampleRate d) (ds_numFrames s) (ds_numChannels s) (Some p)) as -> by congruence. cbn [bd_frames put_frames].
  assert (h3 = hset h4 p (Some (ds_frames s))) as -> by congruence. cbn [hset hp_block] in L3. destruct (q =? p) eqn:Q; [right; f_equal; lia|].
  rewrite <- B0. destruct (K L3) as [X|X]; [left; exact X|right; exact X].
Qed.
Example C108_raw_example : seen_block (dcalled true 99 false 0 [] two_heap two_frames (DRaw raw_file 1 BK_8_BIT_SIGNED)) 1 = Some ([], None, put_frames two_frames true 8 44100 4 1 (Some 2), 0) /\
  seen_block (dcalled true 99 false 0 [] two_heap two_frames (DRaw raw_file 1 BK_8_BIT_SIGNED)) 2 = Some ([], Some [Some 258; Some 516; Some 774; Some 1032], put_frames two_frames true 8 44100 4 1 (Some 2), 0).
Proof. split; vm_compute; reflexivity. Qed.

(** With an allocator which releases blocks that are resized to nothing, an object with its own
    frames that gets data without frames reports an error and keeps a pointer to released frames,
    which are released again when it is disposed; nothing was refused.  An empty file, or a file
    read to its end, has no frames. *)
Theorem C108_empty_refuted : exists h d h' f, heap_ok h /\ own_ok h d /\ BKDataDispose h d <> Err EFreed /\ f_pos f = fsize f /\
  dcalled true 99 false 0 [] h d (DBytes [] 0 1 BK_8_BIT_UNSIGNED) = Ok ([], h', d, BK_ALLOCATION_ERROR) /\ bd_frames d = Some 0 /\ hp_block h' 0 = None /\ BKDataDispose h' d = Err EFreed /\
  exists h2, dcalled true 99 false 0 [] h d (DRaw f 1 BK_8_BIT_UNSIGNED) = Ok ([], h2, d, BK_ALLOCATION_ERROR) /\ BKDataDispose h2 d = Err EFreed.
Proof.
  exists two_heap, two_frames. eexists. exists (mk_file [1; 2] 2 0 false true). split; [split; cbn; [lia|]; intros p P; destruct (p =? 0) eqn:E; [lia|reflexivity]|].
  split; [intros _; cbn; split; [lia|discriminate]|]. split; [discriminate|]. split; [reflexivity|]. split; [reflexivity|]. split; [reflexivity|]. split; [reflexivity|]. split; [reflexivity|].
  eexists. split; [reflexivity|]. reflexivity.
Qed.
(** The same for every object with frames of its own, for data of all formats. *)
Theorem C108_empty_data big a h d p c params s : bd_init d = true -> bd_isa d = true -> bd_copy d = true -> bd_frames d = Some p -> 0 <= p -> hp_block h p <> None ->
  BKDataSetData big [] 0 c params = Ok (Some s, 0) -> ds_frames s = [] ->
  exists h', set_bytes true big a h d [] 0 c params = Ok (a, h', d, BK_ALLOCATION_ERROR) /\ BKDataDispose h' d = Err EFreed.
Proof.
  intros I IS C F P L D S. unfold set_bytes. rewrite D. cbn [bind]. rewrite C, F, S. cbn [length try_realloc Nat.eqb andb]. unfold hfree, hget. assert (p <? 0 = false) as -> by lia.
  destruct (hp_block h p); [|congruence]. cbn [bind]. eexists. split; [reflexivity|]. unfold BKDataDispose. rewrite I, IS, C, F. cbn [negb hfree]. assert (p <? 0 = false) as -> by lia.
  unfold hget. cbn [hset hp_block]. rewrite Z.eqb_refl. reflexivity.
Qed.
Example C108_empty_data_example : exists s, BKDataSetData false [] 0 2 BK_16_BIT_SIGNED = Ok (Some s, 0) /\ ds_frames s = [].
Proof. eexists. split; reflexivity. Qed.
(** A copy for which there is no memory claims to have the frames of the original. *)
Theorem C108_copy_refuted : exists h c, init_copy true [false] h two_frames = Ok ([], h, c, -1) /\ bd_frames c = None /\ bd_numFrames c = 2.
Proof. exists two_heap. eexists. split; [reflexivity|]. split; reflexivity. Qed.

(** * C107: disposing objects whose initialisation failed *)

(** Contexts which are initialised, or for which there is no memory at all, can be disposed. *)
Lemma dispose_channels_ok n : forall k, (n <= k)%nat -> exists l, dispose_channels n (Some (repeat true k)) = Ok (Some l) /\ length l = k.
Proof.
  induction n as [|n IH]; intros k K; cbn [dispose_channels]; [eexists; split; [reflexivity|apply repeat_length]|].
  destruct (IH k) as (l & E & L); [lia|]. rewrite E. cbn [bind]. rewrite (aget_nth l (Z.of_nat n) true) by lia. cbn [bind]. eexists. split; [reflexivity|]. rewrite upd_length. exact L.
Qed.
Lemma dispose_channels_none n : (0 < n)%nat -> dispose_channels n None = Err ENull.
Proof. induction n as [|n IH]; [lia|]. intros _. cbn [dispose_channels]. destruct n; [reflexivity|]. rewrite IH by lia. reflexivity. Qed.
Theorem C107_contexts_partial a n a' c ret :
  (context_init a n = (a', c, ret) -> ~ refused a a' -> ret = 0 /\ cm_numChannels c = BKClamp n 1 8 /\ context_dispose (Some c) = Ok (Some (mk_cmem false false false 0 None))) /\
  (forall p, context_alloc a n = (a', p, ret) -> ~ refused a a' \/ p = None -> (ret = 0 <-> p <> None) /\ context_dispose p = Ok None).
Proof.
  assert (K : exists l, dispose_channels (Z.to_nat (BKClamp n 1 BK_MAX_CHANNELS)) (Some (repeat true (Z.to_nat (BKClamp n 1 BK_MAX_CHANNELS)))) = Ok (Some l)).
  { destruct (dispose_channels_ok (Z.to_nat (BKClamp n 1 BK_MAX_CHANNELS)) (Z.to_nat (BKClamp n 1 BK_MAX_CHANNELS))) as (l & E & _); [lia|]. exists l. exact E. }
  destruct K as (l & K). split.
  - unfold context_init, init_generic. destruct (next_answer a) as [yes a1] eqn:N. destruct yes; intros E R.
    + assert (c = mk_cmem true false true (BKClamp n 1 BK_MAX_CHANNELS) (Some (repeat true (Z.to_nat (BKClamp n 1 BK_MAX_CHANNELS))))) as -> by (cbn in E; congruence).
      split; [cbn in E; congruence|]. split; [reflexivity|]. cbn [context_dispose cm_isa cm_init negb cm_numChannels cm_channels]. rewrite K. reflexivity.
    + exfalso. apply R. destruct a as [|b a]; [discriminate|]. cbn in N. assert (b = false) as -> by congruence. exists [false]. split; [cbn in E |- *; congruence|left; reflexivity].
  - intros p. unfold context_alloc. destruct (next_answer a) as [yes a1] eqn:N. destruct yes.
    + unfold init_generic. destruct (next_answer a1) as [yes2 a2] eqn:N2. destruct yes2; intros E R.
      * assert (p = Some (mk_cmem true true true (BKClamp n 1 BK_MAX_CHANNELS) (Some (repeat true (Z.to_nat (BKClamp n 1 BK_MAX_CHANNELS)))))) as -> by (cbn in E; congruence).
        split; [cbn in E; split; congruence|]. cbn [context_dispose cm_isa cm_init negb cm_numChannels cm_channels cm_alloc]. rewrite K. reflexivity.
      * exfalso. destruct R as [R|R]; [|cbn in E; congruence]. apply R. destruct a as [|b a]; [cbn in N; assert (a1 = []) as -> by congruence; discriminate|]. cbn in N. destruct a1 as [|b2 a1]; [discriminate|]. cbn in N2.
        exists [b; b2]. assert (a2 = a') as -> by (cbn in E; congruence). split; [cbn; congruence|right; left; congruence].
    + intros E _. assert (p = None) as -> by (cbn in E; congruence). split; [split; [cbn in E; intros X; assert (ret = -1) by congruence; lia|congruence]|reflexivity].
Qed.
Example C107_contexts_example : ~ refused [true; true] [] /\ ~ refused [true] [] /\ fst (fst (context_init [true] 2)) = [] /\ snd (context_alloc [true; true] 2) = 0 /\ context_alloc [false] 2 = ([], None, -1).
Proof.
  split; [intros (got & E & I); rewrite app_nil_r in E; subst got; destruct I as [I|[I|[]]]; discriminate|]. split; [intros (got & E & I); rewrite app_nil_r in E; subst got; destruct I as [I|[]]; discriminate|].
  split; [reflexivity|]. split; reflexivity.
Qed.

(** A context without memory for its channels cannot be disposed: channels behind a null pointer
    are written.  [BKContextAlloc] hands such a context to the caller, who can only lose it. *)
Theorem C107_no_channels a n : exists c, context_init (false :: a) n = (a, c, -1) /\ context_dispose (Some c) = Err ENull.
Proof.
  eexists. split; [reflexivity|]. cbn [context_dispose cm_isa cm_init negb cm_numChannels cm_channels]. rewrite dispose_channels_none; [reflexivity|].
  unfold BKClamp, BKMin, BKMax, BK_MAX_CHANNELS. destruct (n <? 1) eqn:E1; destruct (n >? 8) eqn:E2; lia.
Qed.
Theorem C107_no_channels_alloc a n : exists c, context_alloc (true :: false :: a) n = (a, Some c, -1) /\ context_dispose (Some c) = Err ENull.
Proof.
  destruct (C107_no_channels a n) as (c & E & D). eexists. split; [reflexivity|]. cbn [context_dispose cm_isa cm_init negb cm_numChannels cm_channels] in *.
  rewrite dispose_channels_none; [reflexivity|]. unfold BKClamp, BKMin, BKMax, BK_MAX_CHANNELS. destruct (n <? 1) eqn:E1; destruct (n >? 8) eqn:E2; lia.
Qed.
Theorem C107_contexts_refuted : exists c, context_alloc [true; false] 2 = ([], Some c, -1) /\ context_dispose (Some c) = Err ENull.
Proof. exact (C107_no_channels_alloc [] 2). Qed.

(** A wave writer for a number of bits which is not supported cannot be disposed: the size fields
    are written to a file behind a null pointer. *)
Theorem C107_writer big f ch rate bits w ret : BKWaveFileWriterInit big f ch rate bits = (ret, Some w) -> ret <> 0 -> BKWaveFileWriterDispose big w = Err ENull.
Proof.
  unfold BKWaveFileWriterInit. destruct (negb (check_writable f =? 0)); [discriminate|]. destruct (negb _ && negb _); intros E R; [|congruence].
  assert (w = mk_writer None 0 0 0 0 0 0 false false false) as -> by congruence. reflexivity.
Qed.
Theorem C107_writer_refuted : exists f w, BKWaveFileWriterInit false f 1 44100 24 = (BK_INVALID_VALUE, Some w) /\ BKWaveFileWriterDispose false w = Err ENull.
Proof. exists (mk_file [] 0 2 false true). eexists. split; reflexivity. Qed.
(** All other files which are rejected leave the writer untouched, and readers own nothing. *)
Theorem C107_writer_partial big f ch rate bits w ret : BKWaveFileWriterInit big f ch rate bits = (ret, w) -> bits = 0 \/ bits = 8 \/ bits = 16 ->
  match w with
  | None => ret <> 0
  | Some w => ret = 0 /\ wr_file w = Some f /\ exists f', BKWaveFileWriterDispose big w = Ok f'
  end.
Proof.
  unfold BKWaveFileWriterInit. destruct (check_writable f =? 0) eqn:C; cbn [negb]; intros E B.
  - assert (negb ((if bits =? 0 then 16 else bits) =? 8) && negb ((if bits =? 0 then 16 else bits) =? 16) = false) as X by (destruct B as [->|[->| ->]]; reflexivity).
    rewrite X in E. assert (w = Some (mk_writer (Some f) (f_pos f) rate ch (if bits =? 0 then 16 else bits) 0 0 big false false)) as -> by congruence.
    split; [congruence|]. split; [reflexivity|]. eexists. reflexivity.
  - assert (w = None) as -> by congruence. assert (ret = check_writable f) as -> by congruence. lia.
Qed.
Example C107_writer_example : exists w, BKWaveFileWriterInit false (mk_file [] 0 2 false true) 1 44100 8 = (0, Some w).
Proof. eexists. reflexivity. Qed.

Print Assumptions C108_refused_partial.
Print Assumptions C108_disposable.
Print Assumptions C108_granted.
Print Assumptions C108_raw_no_leak.
Print Assumptions C108_empty_refuted.
Print Assumptions C108_empty_data.
Print Assumptions C108_copy_refuted.
Print Assumptions C107_contexts_partial.
Print Assumptions C107_no_channels.
Print Assumptions C107_no_channels_alloc.
Print Assumptions C107_contexts_refuted.
Print Assumptions C107_writer.
Print Assumptions C107_writer_refuted.
Print Assumptions C107_writer_partial.
