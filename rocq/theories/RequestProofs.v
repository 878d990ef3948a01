(** Proofs of C106. *)
From Verif Require Import CInt CIntFacts TimeModel BufferModel UnitModel TrackModel TrackTime ContextModel ContextSame ContextShift ContextRun ContextChunk ContextGen ContextGen2
  ContextSpec ContextHist RequestSpec.
Ltac Zify.zify_post_hook ::= idtac.

Lemma nth_join k : forall a b, nth k (join a b) [] = nth k a [] ++ nth k b [].
Proof.
  induction k as [|k IH]; intros [|x a] [|y b]; cbn [join nth]; try rewrite app_nil_r; try reflexivity. apply IH.
Qed.
Lemma heard_app k a b : heard k (a ++ b) = heard k a ++ heard k b.
Proof. unfold heard. rewrite map_app, concat_app. reflexivity. Qed.

Section Request.
Variable e : env.
Variable fuel : nat.
Hypothesis P : env_ok e.

(** A script, frame by frame. *)
Inductive steps : list (option xop) -> context -> context -> list (list (list Z)) -> Prop :=
| steps_nil c : steps [] c c []
| steps_frame N s c c1 c2 l fs : chunk N e fuel c 1 = Ok (c1, 1, l) -> steps s c1 c2 fs -> steps (None :: s) c c2 (l :: fs)
| steps_call o s c c1 c2 l fs : xstep 0 0 e fuel c o = Ok (c1, l) -> steps s c1 c2 fs -> steps (Some o :: s) c c2 fs.

Lemma steps_det s : forall c c1 fs c1' fs', steps s c c1 fs -> steps s c c1' fs' -> c1 = c1' /\ fs = fs'.
Proof.
  induction s as [|[o|] s IH]; intros c c1 fs c1' fs' A B.
  - inversion A; subst. inversion B; subst. auto.
  - inversion A as [| |? ? ? d ? l ? E X]; subst. inversion B as [| |? ? ? d' ? l' ? E' X']; subst. assert (d' = d) as -> by congruence. apply (IH _ _ _ _ _ X X').
  - inversion A as [|N ? ? d ? l ? E X|]; subst. inversion B as [|N' ? ? d' ? l' ? E' X'|]; subst.
    apply (chunk_more _ _ _ _ _ _ N') in E. apply (chunk_more _ _ _ _ _ _ N) in E'. rewrite Nat.add_comm in E'.
    assert (d' = d) as -> by congruence. assert (l' = l) as -> by congruence. destruct (IH _ _ _ _ _ X X') as [-> ->]. auto.
Qed.

Lemma ones_steps n c c1 l : ones e fuel n c c1 l -> forall s c2 fs, steps s c1 c2 fs ->
  exists gs, steps (repeat None n ++ s) c c2 (gs ++ fs) /\ forall k, nth k l [] = heard k gs.
Proof.
  induction 1 as [c|n N c c1 c2 l1 l2 C O IH]; intros s c3 fs S.
  - exists []. split; [exact S|]. intros k. cbn. generalize (length (cx_channels c)). intros z. revert z. induction k as [|k IH]; intros [|z]; cbn; try reflexivity. apply IH.
  - destruct (IH s c3 fs S) as (gs & G & H). exists (l1 :: gs). split; [econstructor; eassumption|]. intros k. rewrite nth_join, H. reflexivity.
Qed.

Lemma runs_steps m n : forall ops started ids c c' ls, inv started ids c -> legal started ids ops -> xruns m n e fuel c ops = Ok (c', ls) ->
  exists fs, steps (script ops) c c' fs /\ forall k, heard k ls = heard k fs.
Proof.
  induction ops as [|o ops IH]; intros started ids c c' ls I L E; cbn [xruns] in E.
  - assert (c' = c) as -> by congruence. assert (ls = []) as -> by congruence. exists []. split; [constructor|reflexivity].
  - binv E r E1. destruct r as [c1 l]. binv E r E2. destruct r as [c2 l2]. assert (c' = c2) as -> by congruence. assert (ls = l :: l2) as -> by congruence. clear E.
    destruct (legal_step m n e fuel P _ _ _ _ _ _ _ I L E1) as (s' & i' & I' & L' & _). destruct (IH _ _ _ _ _ I' L' E2) as (fs & S & H).
    assert (CALL : (xstep m n e fuel c o = xstep 0 0 e fuel c o) -> (forall k, nth k l [] = []) -> exists fs', steps (Some o :: script ops) c c2 fs' /\ forall k, heard k (l :: l2) = heard k fs').
    { intros EQ N. exists fs. split; [econstructor; [rewrite <- EQ; exact E1|exact S]|]. intros k. rewrite <- H. unfold heard. cbn [map concat]. rewrite N. reflexivity. }
    destruct o; cbn [script]; try contradiction L;
      try (apply CALL; [reflexivity|]; cbn [xstep] in E1; assert (l = []) as -> by (first [congruence | binv E1 x X1; try destruct x; congruence]); intros [|?]; reflexivity).
    cbn [xstep] in E1. binv E1 r X. destruct r as [[c3 w] l3]. assert (c3 = c1) as -> by congruence. assert (l3 = l) as -> by congruence. clear E1.
    destruct L as (L1 & _). pose proof (inv_able _ _ _ I L1) as A. unfold BKContextGenerate in X. pose proof (u32_range size) as U.
    apply (generate_ones e fuel P) in X; [|exact A|lia|lia|lia]. destruct X as [_ O]. destruct (ones_steps _ _ _ _ O _ _ _ S) as (gs & G & HG).
    exists (gs ++ fs). split; [exact G|]. intros k. rewrite heard_app, <- HG, <- H. reflexivity.
Qed.
End Request.
