(** C104, C105: instruments, the tracks which use them, and their sequences. *)
From Verif Require Import CIntFacts ContextSame DList InstrUsersModel InstrUsersSpec InstrUsersProofs.
Ltac Zify.zify_post_hook ::= idtac.

(** C104: whatever tracks and instruments are initialised, used and disposed of, in any order,
    no call ever reaches an object which is gone, every loop over the states of an instrument
    ends, and afterwards every instrument lists exactly the tracks which use it, the latest
    first and each of them once; a track knows its instrument as long as it uses it. *)
Theorem C104_users : forall fuel ops,
  iallowed_all world_init ops -> (length ops <= fuel)%nat ->
  exists h, iruns fuel iheap_init ops = Ok h /\
  let w := world_after world_init ops in
  (forall i, In i (w_instrs w) ->
     listed fuel h (ii_list (ih_instr h i)) = w_users w i /\ linked_back h 0 (w_users w i) /\ NoDup (w_users w i)) /\
  (forall i t, In t (w_users w i) -> In i (w_instrs w) /\ In t (w_tracks w)) /\
  (forall t i, In t (w_tracks w) -> i <> 0 -> (it_instr (ih_track h t) = i <-> In t (w_users w i))) /\
  (forall t, In t (w_tracks w) -> it_flag (ih_track h t) = true <-> exists i, In t (w_users w i)).
Proof.
  intros fuel ops A F. destruct (iruns_ok fuel ops iheap_init world_init irep_init (NoDup_nil _) F A) as (h & E & R & ND & LE). exists h. split; [exact E|]. cbv zeta.
  pose proof (ir_lists _ _ R) as L. set (w := world_after world_init ops) in *.
  assert (UI : forall i t, In t (w_users w i) -> In i (w_instrs w)). { intros i t X. destruct (in_dec Z.eq_dec i (w_instrs w)) as [J|J]; [exact J|]. rewrite (lr_out _ _ _ _ L i J) in X. destruct X. }
  split; [|split; [|split]].
  - intros i I. destruct (lr_list _ _ _ _ L i I) as (-> & D & N). split; [|split; [|exact N]]; [|apply linked_ok, D]. apply (listed_ok h _ 0 _ D). pose proof (users_len h w i R ND). lia.
  - intros i t X. split; [apply (UI i t X)|apply (lr_user _ _ _ _ L i t X)].
  - intros t i T I. split; [intros <-; apply (lr_uses _ _ _ _ L t T I)|intros X; apply (lr_user _ _ _ _ L i t X)].
  - intros t T. rewrite (ir_flag _ _ R t T). destruct (Z.eqb_spec (it_instr (ih_track h t)) 0) as [Z0|NZ]; cbn [negb]; split.
    + discriminate.
    + intros (i & X). destruct (lr_user _ _ _ _ L i t X) as (_ & <-). destruct (lr_instr _ _ _ _ L _ (UI _ _ X)). congruence.
    + intros _. eexists. apply (lr_uses _ _ _ _ L t T NZ).
    + reflexivity.
Qed.

(** C105: no history ever uses a sequence which was released or releases one twice; the
    sequences in memory are exactly those in the slots of instruments, each in one slot, and
    every track plays the sequences of its instrument, or none without one. *)
Theorem C105_sequences : forall fuel ops,
  iallowed_all world_init ops -> (length ops <= fuel)%nat ->
  exists h, iruns fuel iheap_init ops = Ok h /\
  let w := world_after world_init ops in
  (forall p, ih_live h p = true <-> p <> 0 /\ exists i, In i (w_instrs w) /\ In p (ii_seqs (ih_instr h i))) /\
  (forall i j m n, In i (w_instrs w) -> In j (w_instrs w) ->
     nth m (ii_seqs (ih_instr h i)) 0 = nth n (ii_seqs (ih_instr h j)) 0 -> nth m (ii_seqs (ih_instr h i)) 0 <> 0 -> i = j /\ m = n) /\
  (forall i t, In t (w_users w i) -> it_seqs (ih_track h t) = ii_seqs (ih_instr h i)) /\
  (forall t, In t (w_tracks w) -> (forall i, ~ In t (w_users w i)) -> it_seqs (ih_track h t) = [0; 0; 0; 0]) /\
  (w_instrs w = [] -> forall p, ih_live h p = false).
Proof.
  intros fuel ops A F. destruct (iruns_ok fuel ops iheap_init world_init irep_init (NoDup_nil _) F A) as (h & E & R & ND & LE). exists h. split; [exact E|]. cbv zeta.
  pose proof (ir_lists _ _ R) as L. set (w := world_after world_init ops) in *.
  split; [exact (ir_live _ _ R)|]. split; [exact (ir_once _ _ R)|]. split; [|split].
  - intros i t X. destruct (lr_user _ _ _ _ L i t X) as (T & E1). rewrite (ir_seqs _ _ R t T), E1. unfold seqs_of. destruct (Z.eqb_spec i 0) as [->|]; [|reflexivity].
    exfalso. destruct (in_dec Z.eq_dec 0 (w_instrs w)) as [J|J]; [destruct (lr_instr _ _ _ _ L 0 J); congruence|]. rewrite (lr_out _ _ _ _ L 0 J) in X. exact X.
  - intros t T N. rewrite (ir_seqs _ _ R t T). unfold seqs_of. destruct (Z.eqb_spec (it_instr (ih_track h t)) 0) as [|NZ]; [reflexivity|]. exfalso. apply (N _ (lr_uses _ _ _ _ L t T NZ)).
  - intros W p. destruct (ih_live h p) eqn:P; [|reflexivity]. apply (ir_live _ _ R) in P as (_ & i & J & _). rewrite W in J. destruct J.
Qed.

(** C105: setting a sequence replaces that slot only; a failed creation changes nothing. *)
Theorem C105_set : forall fuel ops h i slot new,
  iallowed_all world_init ops -> (length ops <= fuel)%nat -> iruns fuel iheap_init ops = Ok h ->
  In i (w_instrs (world_after world_init ops)) -> 0 <= slot ->
  exists h' r, set_sequence fuel h i slot new = Ok (h', r) /\ stored h i slot new h' r.
Proof.
  intros fuel ops h i slot new A F E I S. destruct (iruns_ok fuel ops iheap_init world_init irep_init (NoDup_nil _) F A) as (h1 & E1 & R & ND & LE). assert (h1 = h) as -> by congruence.
  pose proof (users_len _ _ i R ND) as U. destruct (set_sequence_ok fuel h _ i slot new R I S ltac:(lia)) as (h' & r & X & _ & Y). eauto.
Qed.

(** Two tracks and two instruments; the first instrument is disposed of while it is in use. *)
Definition some_ops : list iop :=
  [IInit 1; IInit 2; ISequence 1 0 CNew; ISequence 2 3 CNew; TInit 7; TInit 8; TSet 7 1; TSet 8 1; TNote 7; TTick 7; ISequence 1 0 CNew; ISequence 1 2 CNew;
   TTick 8; TSet 7 2; IDispose 1; TTick 8; ISequence 2 3 CFail; ISequence 2 9 CNew; TClear 8].
Lemma some_allowed : iallowed_all world_init some_ops.
Proof. cbn. intuition lia. Qed.
Definition seen {A} (r : res iheap) (f : iheap -> A) : option A := match r with Ok h => Some (f h) | Err _ => None end.
Example C104_example : exists h, iruns 19 iheap_init some_ops = Ok h /\
  w_users (world_after world_init some_ops) 2 = [7] /\ w_users (world_after world_init (firstn 12 some_ops)) 1 = [8; 7] /\
  listed 19 h (ii_list (ih_instr h 2)) = [7] /\ it_instr (ih_track h 8) = 0.
Proof.
  destruct (C104_users 19 some_ops some_allowed ltac:(cbn; lia)) as (h & E & U & _ & W & _). exists h. split; [exact E|]. split; [reflexivity|]. split; [reflexivity|]. split.
  - rewrite (proj1 (U 2 ltac:(cbn; auto))). reflexivity.
  - assert (K : seen (iruns 19 iheap_init some_ops) (fun h => it_instr (ih_track h 8)) = Some 0) by (vm_compute; reflexivity).
    rewrite E in K. cbn [seen] in K. congruence.
Qed.
Example C105_example : exists h, iruns 19 iheap_init some_ops = Ok h /\
  ii_seqs (ih_instr h 2) = [0; 0; 0; 2] /\ it_seqs (ih_track h 7) = [0; 0; 0; 2] /\ it_seqs (ih_track h 8) = [0; 0; 0; 0] /\
  map (ih_live h) [1; 2; 3; 4; 5] = [false; true; false; false; false].
Proof.
  destruct (C105_sequences 19 some_ops some_allowed ltac:(cbn; lia)) as (h & E & _). exists h. split; [exact E|].
  assert (K : seen (iruns 19 iheap_init some_ops) (fun h => (ii_seqs (ih_instr h 2), it_seqs (ih_track h 7), it_seqs (ih_track h 8), map (ih_live h) [1; 2; 3; 4; 5]))
    = Some ([0; 0; 0; 2], [0; 0; 0; 2], [0; 0; 0; 0], [false; true; false; false; false])) by (vm_compute; reflexivity).
  rewrite E in K. cbn [seen] in K. repeat split; congruence.
Qed.
Example C105_set_example : exists h h' r, iruns 19 iheap_init some_ops = Ok h /\ set_sequence 19 h 2 0 CNew = Ok (h', r) /\ ii_seqs (ih_instr h' 2) = [5; 0; 0; 2] /\ stored h 2 0 CNew h' r.
Proof.
  destruct (C105_sequences 19 some_ops some_allowed ltac:(cbn; lia)) as (h & E & _). destruct (C105_set 19 some_ops h 2 0 CNew some_allowed ltac:(cbn; lia) E) as (h' & r & S & T); [cbn; auto|lia|].
  exists h, h', r. split; [exact E|]. split; [exact S|]. split; [|exact T].
  assert (K : seen (let* h := iruns 19 iheap_init some_ops in let* (h', _) := set_sequence 19 h 2 0 CNew in Ok h') (fun h => ii_seqs (ih_instr h 2)) = Some [5; 0; 0; 2]) by (vm_compute; reflexivity).
  rewrite E in K. cbn [bind] in K. rewrite S in K. cbn [bind seen] in K. congruence.
Qed.

Print Assumptions C104_users.
Print Assumptions C105_sequences.
Print Assumptions C105_set.
