(** Properties of a channel that gets no more pulses: C101. *)
From Verif Require Import CIntFacts Kernels BufferModel BufferSpec BufferProofs BufferProofs2 MixSpec PropertiesBuffer PropertiesMix FadeProofs.
Ltac Zify.zify_post_hook ::= idtac.

(** ** C101: silence follows *)

(** Whatever was played before, all samples from 8128 frames after the last range with pulses on
    are exactly 0: the 8096 steps the filter needs at most and the 32 frames of a pulse. *)
Theorem C101_silence K rs qs b' s : kernel_ok K -> rounds_ok 0 0 (rs ++ qs) -> Forall (fun r => r_pulses r = []) qs ->
  rounds_run (mk_buffer 0 0 0 (repeat 0 BK_BUFFER_CAPACITY) K) (raw_rounds (rs ++ qs)) = Ok (b', s) ->
  forall j, zsum (map r_end rs) / 1048576 + 8128 <= Z.of_nat j -> (j < length s)%nat -> nth j s 0 = 0.
Proof. apply silence. Qed.

(** A loud jump at the start and three ranges without pulses. *)
Definition ex_loud_part : list round := [mk_round [(0, 30000)] 1048576 1].
Definition ex_quiet_part : list round := [mk_round [] 4194304000 4000; mk_round [] 4194304000 4000; mk_round [] 1048576000 1000].
Lemma ex_fade_sources : let rs := [mk_sround [(1, (0, 30000))] 1048576 1; mk_sround [] 4194304000 4000; mk_sround [] 4194304000 4000; mk_sround [] 1048576000 1000] in
  map plain rs = ex_loud_part ++ ex_quiet_part /\ sources_ok [1] (fun _ => 0) (fun _ => 30000) rs.
Proof.
  split; [reflexivity|]. split; [repeat constructor; cbn; tauto|]. split; [intros s _; lia|]. split; [intros x; cbn; intuition (subst; cbn; lia)|]. intros s [<-|[]]; cbn; lia.
Qed.
Example C101_example : rounds_ok 0 0 (ex_loud_part ++ ex_quiet_part) /\ Forall (fun r => r_pulses r = []) ex_quiet_part /\
  exists b' s, rounds_run BKBufferInit (raw_rounds (ex_loud_part ++ ex_quiet_part)) = Ok (b', s) /\
  Z.of_nat (length s) = 9001 /\ nth 40 s 0 = 32767 /\ nth (Z.to_nat 5000) s 0 = 3 /\ nth (Z.to_nat 8129) s 0 = 0.
Proof.
  assert (R : rounds_ok 0 0 (ex_loud_part ++ ex_quiet_part)).
  { unfold ex_loud_part, ex_quiet_part. cbn [app rounds_ok r_end r_pulses r_read].
    change ((0 + 1048576) / 1048576) with 1. change ((0 + 1048576 + 4194304000) / 1048576) with 4001. change ((0 + 1048576 + 4194304000 + 4194304000) / 1048576) with 8001.
    change ((0 + 1048576 + 4194304000 + 4194304000 + 1048576000) / 1048576) with 9001. repeat split; try lia; cbn [In] in *; intuition (try congruence); repeat match goal with H : (_, _) = (_, _) |- _ => inversion H; clear H end; subst; unfold is_s16; lia. }
  split; [exact R|]. split; [repeat constructor|]. destruct ex_fade_sources as (M & S). rewrite <- M in *.
  destruct (C99_one_source_partial 1 _ _ _ S ltac:(cbn; lia) R) as (b' & E); [repeat constructor|]. exists b'. eexists. split; [exact E|]. vm_compute. auto.
Qed.

Print Assumptions C101_silence.
