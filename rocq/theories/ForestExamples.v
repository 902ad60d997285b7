(** * ForestExamples: a concrete history meeting the hypotheses of the forest
    properties (proofs) *)
From Verif Require Import Base StateModel CodecModel ForestModel PosSpec PosFacts MerkleSpec ForestFacts ForestInv SpecFacts ForestSpec HistFacts.

(** A small hash; seven leaves; three of them deleted and two added. *)
Definition ex_H (a b : hash) : hash := (3 * a + 5 * b + 1) mod 1000.
Definition ex_ls : list hash := [10; 11; 12; 13; 14; 15; 16].
Definition ex_adds : list leaf := [(20, false); (21, true)].
Definition ex_ts : list N := [1; 2; 5].
Definition ex_ls' : list hash := [10; 13; 14; 16; 20; 21].

Lemma ex_H_fits a b : ex_H a b < 256 ^ 32.
Proof.
  unfold ex_H. pose proof (N.mod_lt (3 * a + 5 * b + 1) 1000 ltac:(done)). assert (1000 < 256 ^ 32) by done. lia.
Qed.

Lemma step_ok H f us ls (adds : list leaf) ts : reachable H f us -> holds_leaves f ls -> size ls + size adds < 2 ^ 31 + size ts ->
  valid_targets (size ls) ts -> NoDup (spec_remove ls ts ++ adds.*1) ->
  exists u f', F_Modify H f adds ts = Ok (true, f') /\ F_ModifyUndo H f adds ts = Ok (true, Some u, f') /\
    reachable H f' (u :: us) /\ reachable H f' [] /\ holds_leaves f' (spec_remove ls ts ++ adds.*1).
Proof.
  intros Hr Hh Hb Hv Hnd. destruct (reachable_holds H f us ls Hr Hh) as (Hi & Hn & _). pose proof Hh as [Hfn _].
  destruct (F_Modify_ok H f ls adds ts Hi Hn Hb Hv) as [(_ & f' & u & E1 & E2 & Hi' & Hn' & _)|(Hx & _)]; [|done].
  exists u, f'. split; [done|]. split; [done|]. split; [|split].
  - eapply reach_modify_undo; [done| |done]. by rewrite Hfn.
  - eapply reach_modify; [done| |done]. by rewrite Hfn.
  - apply (F_GetLeaf_ok H); [done|]. assert (2 ^ 31 <= 2 ^ 62) by done. lia.
Qed.

Lemma ex_valid : valid_targets 7 ex_ts.
Proof. split; repeat constructor. Qed.

Lemma ex_start : exists f u, reachable ex_H f [u] /\ reachable ex_H f [] /\ holds_leaves f ex_ls.
Proof.
  destruct (step_ok ex_H (RamForest_new 0) [] [] ((λ h, (h, false)) <$> ex_ls) []) as (u & f & _ & _ & H1 & H2 & H3).
  - constructor.
  - split; [done|]. intros i Hi. change (size (@nil N)) with 0 in Hi. lia.
  - done.
  - apply valid_nil.
  - rewrite <- list_fmap_compose. apply (bool_decide_unpack _). by vm_compute.
  - exists f, u. rewrite <- list_fmap_compose in H3. done.
Qed.

(** The whole history. *)
Lemma ex_history : exists f u0 u f', reachable ex_H f [u0] /\ holds_leaves f ex_ls /\ f_n f = 7 /\
  F_Modify ex_H f ex_adds ex_ts = Ok (true, f') /\ F_ModifyUndo ex_H f ex_adds ex_ts = Ok (true, Some u, f') /\
  reachable ex_H f' [u; u0] /\ holds_leaves f' ex_ls' /\ f_n f' = 6.
Proof.
  destruct ex_start as (f & u0 & H1 & _ & H2).
  destruct (step_ok ex_H f [u0] ex_ls ex_adds ex_ts H1 H2) as (u & f' & E1 & E2 & H3 & _ & H4).
  - done.
  - apply ex_valid.
  - apply (bool_decide_unpack _). by vm_compute.
  - exists f, u0, u, f'. assert (E : spec_remove ex_ls ex_ts ++ ex_adds.*1 = ex_ls') by (by vm_compute). rewrite E in H4.
    split; [done|]. split; [done|]. split; [apply H2|]. split; [done|]. split; [done|]. split; [done|]. split; [done|apply H4].
Qed.

Lemma leaf_fresh f ls h i : holds_leaves f ls -> h ∉ ls -> i < f_n f -> F_GetLeaf f i <> Ok h.
Proof.
  intros [Hn Hl] Hx Hi E. rewrite Hn in Hi. rewrite Hl in E by done. apply Hx. assert (leaf_at ls i = h) as <- by congruence.
  unfold leaf_at, size in *. apply elem_of_list_lookup_total_2. lia.
Qed.
Lemma ex_fresh f h i : holds_leaves f ex_ls -> h ∈ ex_adds.*1 -> i < f_n f -> F_GetLeaf f i <> Ok h.
Proof.
  intros Hh Hin. apply (leaf_fresh f ex_ls); [done|].
  assert (HF : Forall (fun h => h ∉ ex_ls) ex_adds.*1) by (apply (bool_decide_unpack _); by vm_compute).
  rewrite Forall_forall in HF. by apply HF.
Qed.
Lemma ex_leaf_fits f i h : holds_leaves f ex_ls -> i < f_n f -> F_GetLeaf f i = Ok h -> h < 256 ^ 32.
Proof.
  intros Hh Hi E. destruct (decide (h ∈ ex_ls)) as [Hin|Hin]; [|by destruct (leaf_fresh f ex_ls h i Hh Hin Hi)].
  assert (HF : Forall (fun h => h < 256 ^ 32) ex_ls) by (by repeat constructor). rewrite Forall_forall in HF. by apply HF.
Qed.
Lemma ex_modifies : exists us0 f' u1 u2, reachable ex_H (RamForest_new 0) us0 /\
  modifies ex_H (RamForest_new 0) [u2; u1] f' /\ holds_leaves f' ex_ls'.
Proof.
  destruct (step_ok ex_H (RamForest_new 0) [] [] ((λ h, (h, false)) <$> ex_ls) []) as (u1 & f & _ & E1 & H1 & H2 & H3).
  - constructor.
  - split; [done|]. intros i Hi. change (size (@nil N)) with 0 in Hi. lia.
  - done.
  - apply valid_nil.
  - rewrite <- list_fmap_compose. apply (bool_decide_unpack _). by vm_compute.
  - rewrite <- list_fmap_compose in H3. change (holds_leaves f ex_ls) in H3.
    destruct (step_ok ex_H f [u1] ex_ls ex_adds ex_ts H1 H3) as (u2 & f' & _ & E2 & _ & _ & H4).
    + done.
    + apply ex_valid.
    + apply (bool_decide_unpack _). by vm_compute.
    + exists [], f', u1, u2. split; [constructor|]. split; [|done].
      apply (mod_cons ex_H (RamForest_new 0) ((λ h, (h, false)) <$> ex_ls) [] u1 f [u2] f'); [done|done|].
      apply (mod_cons ex_H f ex_adds ex_ts u2 f' [] f'); [|done|constructor]. destruct H3 as [-> _]. done.
Qed.
