(** The volumes a track gives to its unit. *)
From Verif Require Import CInt CIntFacts DataModel UnitModel UnitSpec UnitProofs5 UnitInv3 InterpModel SequenceModel ToneModel
  TrackModel TrackSpec TrackProofs.
Ltac Zify.zify_post_hook ::= idtac.

(** What the volume depends on: the volume of the track, whether volumes are ignored, volume
    and panning of the instrument, the tremolo, the panning, the master volume, and whether
    there are two channels. *)
Record levels := mk_levels {
  lv_volume : Z;
  lv_ignore : bool;
  lv_instr : option (Z * Z);
  lv_tremolo : option Z;
  lv_panning : Z;
  lv_master : Z;
  lv_stereo : bool
}.

(** A fraction in units of 1/32768. *)
Definition part (v f : Z) : Z := v * f / 32768.
Definition level (l : levels) : Z :=
  let track := if lv_ignore l && negb (lv_volume l =? 0) then 32767 else lv_volume l in
  let instr := match lv_instr l with
               | Some (v, _) => if lv_ignore l && negb (v =? 0) then track else part track v
               | None => track
               end in
  let trem := match lv_tremolo l with
              | Some d => if lv_ignore l then instr else part instr (32767 - Z.abs d)
              | None => instr
              end in
  part (Z.max 0 (Z.min 32767 trem)) (lv_master l).
Definition pan (l : levels) : Z :=
  Z.max (-32767) (Z.min 32767 (lv_panning l + match lv_instr l with Some (_, p) => p | None => 0 end)).
(** The volume of channel [k]. *)
Definition channel (l : levels) (k : Z) : Z :=
  if lv_stereo l && (pan l >? 0) && (k =? 0) then part (level l) (32767 - pan l)
  else if lv_stereo l && (pan l <? 0) && (k =? 1) then part (level l) (32767 + pan l)
  else level l.

(** The members of a track these are taken from. *)
Definition measures (t : track) (l : levels) : Prop :=
  BKSlideStateGetValue (tr_volume t) = Ok (lv_volume l) /\
  BKSlideStateGetValue (tr_panning t) = Ok (lv_panning l) /\
  lv_ignore l = has t FIgnore /\ lv_master l = tr_master t /\ lv_stereo l = has t FPan /\
  match lv_instr l with
  | Some (v, p) => has t FInstr = true /\ slot_value t BK_SEQUENCE_VOLUME = Ok v /\ slot_value t BK_SEQUENCE_PANNING = Ok p
  | None => has t FInstr = false
  end /\
  match lv_tremolo l with
  | Some d => has t FTremolo = true /\ (has t FIgnore = false -> BKIntervalStateGetValue (tr_tremolo t) = Ok d)
  | None => has t FTremolo = false
  end.

Lemma bind_inv {A B} (x : res A) (f : A -> res B) y : bind x f = Ok y -> exists a, x = Ok a /\ f a = Ok y.
Proof. destruct x; cbn; [eauto|discriminate]. Qed.

Lemma chk_val x y : chk32 x = Ok y -> y = x.
Proof. intros E. apply chk32_inv in E. apply E. Qed.

Lemma abs_val x y : abs32 x = Ok y -> y = Z.abs x.
Proof. unfold abs32. destruct (Z.ltb_spec x 0); intros E; [apply chk_val in E; lia|injection E as <-; lia]. Qed.

Lemma scaled x w : (let* m := chk32 x in Ok (Z.shiftr m BK_VOLUME_SHIFT)) = Ok w -> w = x / 32768.
Proof.
  intros E. apply bind_inv in E. destruct E as (m & Em & E). apply chk_val in Em. subst m. rewrite <- shr15. congruence.
Qed.

Lemma levels_formula t v p : track_levels t = Ok (v, p) ->
  exists l, measures t l /\ v = level l /\ p = lv_panning l + match lv_instr l with Some (_, p) => p | None => 0 end.
Proof.
  unfold track_levels. intros E. apply bind_inv in E. destruct E as (v0 & E0 & E). apply bind_inv in E. destruct E as (p0 & Ep & E).
  apply bind_inv in E. destruct E as ((v2 & p2) & E2 & E). apply bind_inv in E. destruct E as (v3 & E3 & E). apply bind_inv in E.
  destruct E as (m & Em & E). apply chk_val in Em. subst m. injection E as <- <-. rewrite shr15, clamp_minmax by (unfold BK_MAX_VOLUME; lia).
  set (v1 := if has t FIgnore && negb (v0 =? 0) then BK_MAX_VOLUME else v0) in *.
  assert (K2 : exists oi, match oi with Some (x, y) => has t FInstr = true /\ slot_value t BK_SEQUENCE_VOLUME = Ok x /\ slot_value t BK_SEQUENCE_PANNING = Ok y
                          | None => has t FInstr = false end /\
     v2 = match oi with Some (x, _) => if has t FIgnore && negb (x =? 0) then v1 else part v1 x | None => v1 end /\
     p2 = p0 + match oi with Some (_, y) => y | None => 0 end).
  { destruct (has t FInstr).
    - apply bind_inv in E2. destruct E2 as (x & Ex & E2). apply bind_inv in E2. destruct E2 as (w & Ew & E2).
      apply bind_inv in E2. destruct E2 as (y & Ey & E2). apply bind_inv in E2. destruct E2 as (q & Eq & E2). apply chk_val in Eq. subst q. injection E2 as <- <-.
      exists (Some (x, y)). split; [auto|]. split; [|reflexivity]. destruct (has t FIgnore), (Z.eqb_spec x 0); cbn [negb orb andb] in Ew |- *;
        try exact (scaled _ _ Ew). congruence.
    - exists None. injection E2 as <- <-. split; [reflexivity|]. split; [reflexivity|]. lia. }
  destruct K2 as (oi & K2 & -> & ->). set (v2 := match oi with Some _ => _ | None => v1 end) in *.
  assert (K3 : exists ot, match ot with Some d => has t FTremolo = true /\ (has t FIgnore = false -> BKIntervalStateGetValue (tr_tremolo t) = Ok d)
                          | None => has t FTremolo = false end /\
     v3 = match ot with Some d => if has t FIgnore then v2 else part v2 (32767 - Z.abs d) | None => v2 end).
  { destruct (has t FTremolo); cbn [andb] in E3; [|exists None; split; [reflexivity|congruence]].
    destruct (has t FIgnore); cbn [negb] in E3; [exists (Some 0); split; [split; [reflexivity|discriminate]|congruence]|].
    apply bind_inv in E3. destruct E3 as (d & Ed & E3). apply bind_inv in E3. destruct E3 as (a & Ea & E3). apply bind_inv in E3. destruct E3 as (b & Eb & E3).
    apply chk_val in Eb. apply abs_val in Ea. subst b a. exists (Some d). split; [auto|]. exact (scaled _ _ E3). }
  destruct K3 as (ot & K3 & ->).
  exists (mk_levels v0 (has t FIgnore) oi ot p0 (tr_master t) (has t FPan)). split; [|split; [reflexivity|reflexivity]].
  unfold measures. cbn. auto 10.
Qed.

Lemma set_all u v : BKUnitSetAttr u BK_VOLUME v = Ok (set_volume u (repeat (BKClamp v 0 BK_MAX_VOLUME) 8), 0).
Proof. reflexivity. Qed.
Lemma set_first u v : BKUnitSetAttr u BK_VOLUME_0 v = (let* l := aset (un_volume u) 0 (BKClamp v 0 BK_MAX_VOLUME) in Ok (set_volume u l, 0)).
Proof. reflexivity. Qed.
Lemma set_second u v : BKUnitSetAttr u (BK_VOLUME_0 + 1) v = (let* l := aset (un_volume u) 1 (BKClamp v 0 BK_MAX_VOLUME) in Ok (set_volume u l, 0)).
Proof. reflexivity. Qed.
Lemma unit_inj t u w : Ok (t_unit t u) = Ok (t_unit t w) -> u = w.
Proof. intros E. assert (E' : t_unit t u = t_unit t w) by congruence. change (tr_unit (t_unit t u) = w). rewrite E'. reflexivity. Qed.
Lemma attr_all t u v : unit_attr t BK_VOLUME v = Ok (t_unit t u) -> un_volume u = repeat (BKClamp v 0 BK_MAX_VOLUME) 8.
Proof. unfold unit_attr. rewrite set_all. cbn [bind]. intros E. apply unit_inj in E. subst u. reflexivity. Qed.
Lemma attr_two t u v w : length (un_volume (tr_unit t)) = 8%nat -> 0 <= v <= 32767 -> 0 <= w <= 32767 ->
  (let* t0 := unit_attr t BK_VOLUME_0 v in unit_attr t0 (BK_VOLUME_0 + 1) w) = Ok (t_unit t u) ->
  nth 0 (un_volume u) 0 = v /\ nth 1 (un_volume u) 0 = w.
Proof.
  intros L Hv Hw. assert (CL : forall x, 0 <= x <= 32767 -> BKClamp x 0 BK_MAX_VOLUME = x).
  { intros x Hx. rewrite clamp_minmax by (unfold BK_MAX_VOLUME; lia). unfold BK_MAX_VOLUME. lia. }
  unfold unit_attr. rewrite set_first, CL, aset_ok by lia. cbn [bind tr_unit t_unit]. rewrite set_second, CL, aset_ok.
  2: { cbn [un_volume set_volume]. rewrite upd_length. lia. } 2: exact Hw.
  cbn [bind]. intros E. match type of E with Ok (t_unit (t_unit t _) ?b) = _ => change (Ok (t_unit t b) = Ok (t_unit t u)) in E end.
  apply unit_inj in E. subst u. cbn [un_volume set_volume]. destruct (un_volume (tr_unit t)) as [|x [|y ?]]; try discriminate L. split; reflexivity.
Qed.

(** The volumes of the unit behind an update. *)
Lemma volume_formula fuel t : track_ok fuel t -> exists l u, measures t l /\ BKTrackUpdateUnitVolume t = Ok (t_unit t u) /\
  track_ok fuel (t_unit t u) /\ 0 <= level l <= tr_master t /\
  forall k, 0 <= k < (if lv_stereo l then 2 else 8) -> nth (Z.to_nat k) (un_volume u) 0 = channel l k.
Proof.
  intros H. destruct (volume_ok fuel t H) as (u & E & H'). destruct (levels_ok fuel t H) as (v & p & EL & BV & _).
  destruct (levels_formula t v p EL) as (l & M & -> & EP). exists l, u. split; [exact M|]. split; [exact E|]. split; [exact H'|]. split; [exact BV|].
  pose proof (tk_master _ _ H) as BM. unfold BKTrackUpdateUnitVolume in E. rewrite EL in E. cbn [bind] in E.
  assert (PE : pan l = BKClamp p (- BK_MAX_VOLUME) BK_MAX_VOLUME) by (rewrite clamp_minmax by (unfold BK_MAX_VOLUME; lia); unfold pan; rewrite EP; reflexivity).
  assert (ST : lv_stereo l = has t FPan) by apply M. rewrite ST.
  assert (V8 : length (un_volume (tr_unit t)) = 8%nat) by apply (tk_unit _ _ H).
  assert (AL : unit_attr t BK_VOLUME (level l) = Ok (t_unit t u) -> forall k, 0 <= k < 8 -> nth (Z.to_nat k) (un_volume u) 0 = level l).
  { clear - BV BM. intros E k Hk. rewrite (attr_all _ _ _ E), nth_repeat_any. replace (Z.to_nat k <? 8)%nat with true by (symmetry; apply Nat.ltb_lt; lia).
    rewrite clamp_minmax by (unfold BK_MAX_VOLUME; lia). unfold BK_MAX_VOLUME. lia. }
  unfold channel. rewrite ST. destruct (has t FPan); cbn [andb].
  2: { rewrite andb_false_r in E. exact (AL E). }
  rewrite andb_true_r in E. destruct (Z.eqb_spec p 0) as [P0|NP]; cbn [negb] in E.
  { assert (PZ : pan l = 0) by (rewrite PE, P0; reflexivity). rewrite PZ. cbn [Z.gtb Z.ltb Z.compare andb]. intros k Hk. apply (AL E). lia. }
  rewrite <- PE in E. clear AL PE EP NP M EL ST H'.
  assert (PR : -32767 <= pan l <= 32767) by (unfold pan; clear; lia).
  assert (W : exists w0 w1, w0 = (if pan l >? 0 then part (level l) (32767 - pan l) else level l) /\
                            w1 = (if pan l <? 0 then part (level l) (32767 + pan l) else level l) /\
            (let* t0 := unit_attr t BK_VOLUME_0 w0 in unit_attr t0 (BK_VOLUME_0 + 1) w1) = Ok (t_unit t u)).
  { apply bind_inv in E. destruct E as (w0 & E0 & E). apply bind_inv in E. destruct E as (w1 & E1 & E). exists w0, w1. split; [|split; [|exact E]].
    - destruct (pan l >? 0); [|congruence]. apply scaled in E0. rewrite E0, Z.mul_comm. reflexivity.
    - destruct (pan l <? 0); [|congruence]. apply scaled in E1. rewrite E1, Z.mul_comm. reflexivity. }
  destruct W as (w0 & w1 & EW0 & EW1 & W). clear E.
  assert (B0 : 0 <= w0 <= 32767).
  { clear - EW0 PR BV BM. rewrite EW0. destruct (Z.gtb_spec (pan l) 0); [|lia]. unfold part. pose proof (scale_le (level l) (32767 - pan l)). lia. }
  assert (B1 : 0 <= w1 <= 32767).
  { clear - EW1 PR BV BM. rewrite EW1. destruct (Z.ltb_spec (pan l) 0); [|lia]. unfold part. pose proof (scale_le (level l) (32767 + pan l)). lia. }
  destruct (attr_two t u w0 w1 V8 B0 B1 W) as (N0 & N1).
  intros k Hk. assert (C : k = 0 \/ k = 1) by (clear - Hk; lia). destruct C as [-> | ->].
  - cbn [Z.eqb]. rewrite andb_true_r, andb_false_r. rewrite <- EW0. exact N0.
  - change (1 =? 0) with false. change (1 =? 1) with true. rewrite andb_true_r, andb_false_r. rewrite <- EW1. exact N1.
Qed.

(** ** Laws of the formula *)

Lemma part_bounds v f : 0 <= v -> 0 <= f <= 32767 -> 0 <= part v f <= v.
Proof. apply scale_le. Qed.
Lemma part_mono v v' f f' : 0 <= v <= v' -> 0 <= f <= f' -> part v f <= part v' f'.
Proof. intros. unfold part. apply Z.div_le_mono; [lia|]. apply Z.mul_le_mono_nonneg; lia. Qed.
Lemma part_mono_l v v' f : v <= v' -> 0 <= f -> part v f <= part v' f.
Proof. intros. unfold part. apply Z.div_le_mono; [lia|]. apply Z.mul_le_mono_nonneg_r; lia. Qed.

Lemma level_bounds l : 0 <= lv_master l <= 32767 -> 0 <= level l <= lv_master l.
Proof.
  intros H. unfold level. match goal with |- context [part (Z.max 0 (Z.min 32767 ?x)) _] => generalize x end. intros x.
  unfold part. rewrite Z.mul_comm. apply scale_le; lia.
Qed.
Lemma channel_bounds l k : 0 <= lv_master l <= 32767 -> 0 <= channel l k <= level l.
Proof.
  intros H. pose proof (level_bounds l H) as B. unfold channel. assert (P : -32767 <= pan l <= 32767) by (unfold pan; lia).
  destruct (lv_stereo l); cbn [andb]; [|lia].
  destruct (Z.gtb_spec (pan l) 0); cbn [andb].
  - destruct (k =? 0); [apply part_bounds; lia|]. destruct (Z.ltb_spec (pan l) 0); [lia|]. cbn [andb]. lia.
  - destruct (Z.ltb_spec (pan l) 0); [|cbn [andb]; lia]. cbn [andb]. destruct (k =? 1); [apply part_bounds; lia|lia].
Qed.

(** [l'] has a larger or the same volume and master volume, and else equals [l]. *)
Definition louder (l l' : levels) : Prop :=
  lv_volume l <= lv_volume l' /\ lv_master l <= lv_master l' /\ lv_ignore l' = lv_ignore l /\ lv_instr l' = lv_instr l /\
  (lv_ignore l = false -> lv_tremolo l' = lv_tremolo l) /\ lv_panning l' = lv_panning l /\ lv_stereo l' = lv_stereo l.

Lemma level_mono l l' : louder l l' -> 0 <= lv_volume l -> 0 <= lv_master l ->
  (forall v p, lv_instr l = Some (v, p) -> 0 <= v) -> (lv_ignore l = false -> forall d, lv_tremolo l = Some d -> Z.abs d <= 32767) -> level l <= level l'.
Proof.
  intros (L1 & L2 & E1 & E2 & E3 & _) HV HM HI HT. unfold level. rewrite E1, E2.
  set (a := if lv_ignore l && negb (lv_volume l =? 0) then 32767 else lv_volume l).
  set (a' := if lv_ignore l && negb (lv_volume l' =? 0) then 32767 else lv_volume l').
  assert (A : 0 <= a <= a').
  { unfold a, a'. destruct (lv_ignore l); cbn [andb]; [|lia]. destruct (Z.eqb_spec (lv_volume l) 0), (Z.eqb_spec (lv_volume l') 0); cbn [negb]; lia. }
  clearbody a a'.
  set (b := match lv_instr l with Some _ => _ | None => a end). set (b' := match lv_instr l with Some _ => _ | None => a' end).
  assert (B : 0 <= b <= b').
  { unfold b, b'. destruct (lv_instr l) as [[v p]|]; [|exact A]. specialize (HI v p eq_refl). destruct (_ && _); [exact A|].
    split; [unfold part; apply Z.div_pos; [apply Z.mul_nonneg_nonneg; lia|lia]|apply part_mono_l; lia]. }
  clearbody b b'.
  set (c := match lv_tremolo l with Some _ => _ | None => b end). set (c' := match lv_tremolo l' with Some _ => _ | None => b' end).
  assert (C : c <= c').
  { unfold c, c'. destruct (lv_ignore l); [destruct (lv_tremolo l), (lv_tremolo l'); lia|]. rewrite (E3 eq_refl).
    destruct (lv_tremolo l) as [d|]; [|lia]. specialize (HT eq_refl d eq_refl). apply part_mono_l; lia. }
  clearbody c c'. apply part_mono; lia.
Qed.

Lemma channel_mono l l' k : louder l l' -> 0 <= lv_volume l -> 0 <= lv_master l -> lv_master l' <= 32767 ->
  (forall v p, lv_instr l = Some (v, p) -> 0 <= v) -> (lv_ignore l = false -> forall d, lv_tremolo l = Some d -> Z.abs d <= 32767) -> channel l k <= channel l' k.
Proof.
  intros HL HV HM HM' HI HT. pose proof (level_mono l l' HL HV HM HI HT) as ML.
  destruct HL as (L1 & L2 & E1 & E2 & E3 & E4 & E5). assert (EP : pan l' = pan l) by (unfold pan; rewrite E2, E4; reflexivity).
  unfold channel. rewrite EP, E5. assert (P : -32767 <= pan l <= 32767) by (unfold pan; lia).
  pose proof (level_bounds l ltac:(lia)) as B.
  destruct (lv_stereo l && (pan l >? 0) && (k =? 0)) eqn:C1.
  - apply andb_prop in C1. destruct C1 as (C1 & _). apply andb_prop in C1. destruct C1 as (_ & C1). apply part_mono_l; lia.
  - destruct (lv_stereo l && (pan l <? 0) && (k =? 1)) eqn:C2; [|exact ML]. apply part_mono_l; lia.
Qed.

Lemma part_0 f : part 0 f = 0.
Proof. reflexivity. Qed.
Lemma level_zero l : lv_volume l = 0 \/ lv_master l = 0 -> level l = 0.
Proof.
  intros [E|E]; unfold level; rewrite E.
  - cbn [Z.eqb negb]. rewrite andb_false_r.
    assert (Z0 : match lv_instr l with Some (v, _) => if lv_ignore l && negb (v =? 0) then 0 else part 0 v | None => 0 end = 0)
      by (destruct (lv_instr l) as [[v p]|]; [destruct (_ && _)|]; reflexivity).
    rewrite Z0. assert (Z1 : match lv_tremolo l with Some d => if lv_ignore l then 0 else part 0 (32767 - Z.abs d) | None => 0 end = 0)
      by (destruct (lv_tremolo l); [destruct (lv_ignore l)|]; reflexivity). rewrite Z1. reflexivity.
  - unfold part at 1. rewrite Z.mul_0_r. reflexivity.
Qed.
Lemma channel_zero l k : lv_volume l = 0 \/ lv_master l = 0 -> channel l k = 0.
Proof. intros H. unfold channel. rewrite (level_zero l H). destruct (_ && _ && _); [reflexivity|]. destruct (_ && _ && _); reflexivity. Qed.
