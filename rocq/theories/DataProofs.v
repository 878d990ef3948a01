(** Proofs about BKData.c: normalising, conversion, ranges. *)
From Verif Require Import CInt CIntFacts DataModel.
Ltac Zify.zify_post_hook ::= idtac.

(** ** Normalising *)
Lemma max_abs_ge l : forall m, m <= max_abs l m /\ Forall (fun f => Z.abs f <= max_abs l m) l.
Proof.
  induction l as [|f l IH]; intros m; cbn [max_abs].
  - split; [lia | constructor].
  - set (m' := if BKAbs f >? m then BKAbs f else m).
    assert (m <= m' /\ Z.abs f <= m') as [H1 H2].
    { unfold m', BKAbs. destruct (Z.ltb_spec f 0); [destruct (Z.gtb_spec (- f) m) | destruct (Z.gtb_spec f m)]; lia. }
    destruct (IH m') as [H3 H4]. split; [lia|]. constructor; [lia | exact H4].
Qed.

Lemma max_abs_in l : forall m, max_abs l m = m \/ exists f, In f l /\ Z.abs f = max_abs l m.
Proof.
  induction l as [|f l IH]; intros m; cbn [max_abs]; [now left|].
  destruct (BKAbs f >? m) eqn:E.
  - right. destruct (IH (BKAbs f)) as [H|(g & H1 & H2)].
    + exists f. split; [now left|]. rewrite H. unfold BKAbs. destruct (f <? 0) eqn:E2; lia.
    + exists g. split; [now right|exact H2].
  - destruct (IH m) as [H|(g & H1 & H2)]; [now left|]. right. exists g. split; [now right|exact H2].
Qed.

Definition scaled (factor f : Z) : Z := (f * factor) / 65536.

Lemma scale_bound m factor f :
  0 < m <= 32768 -> factor = 2147418112 / m -> Z.abs f <= m ->
  - 2147418112 <= f * factor <= 2147418112 /\ -32767 <= scaled factor f <= 32767.
Proof.
  intros Hm Hf Hb. unfold scaled.
  assert (0 <= factor) by (subst; apply Z.div_pos; lia).
  assert (m * factor <= 2147418112) by (subst; apply Z.mul_div_le; lia).
  assert (Z.abs f * factor <= m * factor) by (apply Z.mul_le_mono_nonneg_r; lia).
  assert (Z.abs (f * factor) = Z.abs f * factor) by (rewrite Z.abs_mul, (Z.abs_eq factor); lia).
  assert (- 2147418112 <= f * factor <= 2147418112) by lia.
  split; [lia|]. clear Hf.
  generalize dependent (f * factor). intros p.
  intros. split.
  - apply Z.div_le_lower_bound; lia.
  - apply Z.div_le_upper_bound; lia.
Qed.

Lemma scale_all_ok m factor : 0 < m <= 32768 -> factor = 2147418112 / m ->
  forall l, Forall (fun f => Z.abs f <= m) l -> scale_all l factor = Ok (map (scaled factor) l).
Proof.
  intros Hm Hf. induction l as [|f l IH]; intros H; [reflexivity|].
  inversion H; subst. cbn [scale_all map].
  destruct (scale_bound m (2147418112 / m) f Hm eq_refl H2) as [B1 B2].
  rewrite chk32_ok by lia. cbn [bind].
  rewrite IH by assumption. cbn [bind]. f_equal. f_equal.
  rewrite shiftr_div by lia. change (2 ^ 16) with 65536. fold (scaled (2147418112 / m) f). generalize dependent (scaled (2147418112 / m) f). intros v Hv. apply s16_id. lia.
Qed.

Lemma normalize_eq frames : Forall (fun f => -32768 <= f <= 32767) frames ->
  BKDataNormalize frames =
  Ok (if max_abs frames 0 =? 0 then frames else map (scaled (2147418112 / max_abs frames 0)) frames).
Proof.
  intros H. unfold BKDataNormalize.
  destruct (max_abs_ge frames 0) as [Hg HF].
  destruct (max_abs frames 0 =? 0) eqn:E; cbn [negb]; [reflexivity|].
  rewrite chk32_ok by (unfold BK_MAX_VOLUME; lia). cbn [bind].
  change (BK_MAX_VOLUME * 2 ^ 16) with 2147418112.
  assert (max_abs frames 0 <= 32768).
  { destruct (max_abs_in frames 0) as [H1|(f & H1 & H2)]; [lia|].
    rewrite Forall_forall in H. specialize (H f H1). lia. }
  rewrite Z.quot_div_nonneg by lia.
  apply (scale_all_ok (max_abs frames 0)); [lia|reflexivity|exact HF].
Qed.

(** ** Conversion *)
Lemma decode_length be data pos nb sg rev fs : In nb [1; 2; 4; 8; 16] ->
  decode be data pos nb sg rev = Ok fs -> Z.of_nat (length fs) = if nb <=? 8 then 8 / nb else 1.
Proof.
  intros Hn. unfold decode. destruct (aget data pos) as [c|e]; cbn [bind]; [|discriminate].
  cbn [In] in Hn.
  destruct Hn as [<-|[<-|[<-|[<-|[<-|[]]]]]]; intros H.
  - injection H as <-. reflexivity.
  - injection H as <-. reflexivity.
  - injection H as <-. reflexivity.
  - destruct sg; injection H as <-; reflexivity.
  - destruct (aget data (pos + 1)) as [c1|e]; cbn [bind] in H; [|discriminate].
    destruct rev; injection H as <-; reflexivity.
Qed.

Lemma decode_ok be data pos nb sg rev : In nb [1; 2; 4; 8; 16] ->
  0 <= pos -> pos + (if nb =? 16 then 2 else 1) <= Z.of_nat (length data) ->
  exists fs, decode be data pos nb sg rev = Ok fs.
Proof.
  intros Hn Hp Hl. unfold decode.
  assert (exists c, aget data pos = Ok c) as [c Hc].
  { rewrite aget_nth with (d := 0) by (destruct (nb =? 16); lia). eauto. }
  rewrite Hc. cbn [bind]. cbn [In] in Hn.
  destruct Hn as [<-|[<-|[<-|[<-|[<-|[]]]]]]; eauto.
  - destruct sg; eauto.
  - assert (exists c, aget data (pos + 1) = Ok c) as [c1 Hc1].
    { cbn in Hl. rewrite aget_nth with (d := 0) by lia. eauto. }
    rewrite Hc1. cbn [bind]. destruct rev; eauto.
Qed.

Lemma skipn_skipn {A} (l : list A) : forall a b, skipn a (skipn b l) = skipn (a + b) l.
Proof.
  induction l as [|x l IH]; intros a b.
  - rewrite !skipn_nil. reflexivity.
  - destruct b as [|b].
    + rewrite Nat.add_0_r. reflexivity.
    + cbn [skipn]. rewrite IH. replace (a + S b)%nat with (S (a + b)) by lia. reflexivity.
Qed.

Lemma upd_split {A} (l : list A) : forall n a, (n < length l)%nat -> upd l n a = firstn n l ++ a :: skipn (S n) l.
Proof.
  induction l as [|x l IH]; intros n a Hn; cbn [length] in Hn; [lia|].
  destruct n as [|n]; [reflexivity|]. cbn [upd firstn app]. rewrite IH by lia. reflexivity.
Qed.

Lemma store_spec fs : forall out o, 0 <= o -> o + Z.of_nat (length fs) <= Z.of_nat (length out) ->
  store out o fs = Ok (firstn (Z.to_nat o) out ++ map Some fs ++ skipn (Z.to_nat o + length fs) out).
Proof.
  induction fs as [|f fs IH]; intros out o Ho Hl; cbn [store].
  - cbn [map length app]. rewrite Nat.add_0_r, firstn_skipn. reflexivity.
  - cbn [length] in Hl. rewrite aset_ok by lia. cbn [bind].
    rewrite IH by (rewrite ?upd_length; lia).
    f_equal. rewrite upd_split by lia.
    set (n := Z.to_nat o). replace (Z.to_nat (o + 1)) with (S n) by lia.
    assert (length (firstn n out) = n) as L by (rewrite firstn_length; lia).
    rewrite firstn_app, firstn_all2 by lia. rewrite L.
    replace (S n - n)%nat with 1%nat by lia. cbn [firstn].
    rewrite skipn_app, (skipn_all2 (n := (S n + length fs)%nat)) by lia. rewrite L. cbn [app].
    replace (S n + length fs - n)%nat with (S (length fs)) by lia.
    rewrite skipn_cons. cbn [map app length].
    rewrite <- app_assoc. cbn [app]. do 3 f_equal.
    rewrite skipn_skipn. f_equal; lia.
Qed.

(** Everything the loop writes: a prefix of the frames. *)
Fixpoint decode_all (n : nat) (be : bool) (data : list Z) (pos step nb : Z) (sg rev : bool) : res (list Z) :=
  match n with
  | O => Ok []
  | S n => let* fs := decode be data pos nb sg rev in
           let* l := decode_all n be data (pos + step) step nb sg rev in Ok (fs ++ l)
  end.

Lemma decode_all_ok be data nb sg rev : In nb [1; 2; 4; 8; 16] -> forall n pos,
  0 <= pos -> pos + Z.of_nat n * (if nb =? 16 then 2 else 1) <= Z.of_nat (length data) ->
  exists l, decode_all n be data pos (if nb =? 16 then 2 else 1) nb sg rev = Ok l /\
            Z.of_nat (length l) = Z.of_nat n * (if nb <=? 8 then 8 / nb else 1).
Proof.
  intros Hn. set (st := if nb =? 16 then 2 else 1). assert (1 <= st <= 2) by (unfold st; destruct (nb =? 16); lia).
  assert (0 <= (if nb <=? 8 then 8 / nb else 1)) as Hpos.
  { cbn [In] in Hn. destruct Hn as [<-|[<-|[<-|[<-|[<-|[]]]]]]; cbn; lia. }
  induction n as [|n IH]; intros pos Hp Hl; cbn [decode_all].
  - exists []. split; [reflexivity|]. cbn [length]. lia.
  - destruct (decode_ok be data pos nb sg rev Hn Hp) as [fs Hfs].
    { change (if nb =? 16 then 2 else 1) with st. nia. }
    destruct (IH (pos + st)) as (l & Hl1 & Hl2); [lia| nia|].
    rewrite Hfs. cbn [bind]. rewrite Hl1. cbn [bind].
    exists (fs ++ l). split; [reflexivity|].
    rewrite app_length, Nat2Z.inj_add, Hl2, (decode_length _ _ _ _ _ _ _ Hn Hfs). lia.
Qed.

Lemma conv_loop_spec be data nb sg rev st : forall n pos out o l,
  decode_all n be data pos st nb sg rev = Ok l ->
  0 <= o -> o + Z.of_nat (length l) <= Z.of_nat (length out) ->
  conv_loop n be data pos st nb sg rev out o =
  Ok (firstn (Z.to_nat o) out ++ map Some l ++ skipn (Z.to_nat o + length l) out).
Proof.
  induction n as [|n IH]; intros pos out o l Hd Ho Hl; cbn [decode_all conv_loop] in *.
  - injection Hd as <-. cbn [map length app]. rewrite Nat.add_0_r, firstn_skipn. reflexivity.
  - destruct (decode be data pos nb sg rev) as [fs|e]; cbn [bind] in *; [|discriminate].
    destruct (decode_all n be data (pos + st) st nb sg rev) as [l'|e] eqn:E; cbn [bind] in *; [|discriminate].
    injection Hd as <-. rewrite app_length in Hl.
    rewrite store_spec by lia. cbn [bind].
    rewrite (IH _ _ _ l' E); [|lia|].
    2:{ rewrite !app_length, map_length, firstn_length, skipn_length. lia. }
    f_equal.
    replace (Z.to_nat (o + Z.of_nat (length fs))) with (Z.to_nat o + length fs)%nat by lia.
    set (k := Z.to_nat o). assert (k + length fs + length l' <= length out)%nat by lia.
    rewrite map_app, <- app_assoc.
    assert (length (firstn k out) = k) by (rewrite firstn_length; lia).
    assert (firstn (k + length fs) (firstn k out ++ map Some fs ++ skipn (k + length fs) out) = firstn k out ++ map Some fs) as ->.
    { rewrite app_assoc. rewrite firstn_app.
      rewrite app_length, map_length.
      replace (k + length fs - (length (firstn k out) + length fs))%nat with 0%nat by lia.
      cbn [firstn]. rewrite app_nil_r. apply firstn_all2. rewrite app_length, map_length. lia. }
    rewrite <- app_assoc. f_equal. f_equal. f_equal.
    rewrite app_assoc, skipn_app.
    rewrite skipn_all2 by (rewrite app_length, map_length; lia). cbn [app].
    rewrite app_length, map_length.
    replace (k + length fs + length l' - (length (firstn k out) + length fs))%nat with (length l') by lia.
    rewrite app_length.
    rewrite skipn_skipn. f_equal. lia.
Qed.
