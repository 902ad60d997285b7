(** * Properties of proof positions and forest proofs: C06, C10 (proofs), C21, C23 *)
From Verif Require Import Base StateModel CodecModel ForestModel PosSpec MerkleSpec ForestSpec ProofSpec ProveFacts ForestExamples.

(** C06: Prove fails iff a hash is no current leaf or is repeated; otherwise it
    returns the positions in the order of the hashes, the same positions sorted,
    and the Merkle hashes of exactly the nodes a verifier cannot compute. *)
Theorem C06_prove H f us ls hs R : reachable H f us -> holds_leaves f ls -> is_height (f_n f) R ->
  (~ (NoDup hs /\ forall h, h ∈ hs -> h ∈ ls) -> F_Prove f hs = Ok None) /\
  (NoDup hs -> (forall h, h ∈ hs -> h ∈ ls) ->
   exists p ps, F_Prove f hs = Ok (Some p) /\ Forall2 (fun h t => t < f_n f /\ F_GetLeaf f t = Ok h) hs (m_targets p) /\
     m_sorted_targets p ≡ₚ m_targets p /\ StronglySorted N.lt (m_sorted_targets p) /\
     lists_nodes R (needed (f_n f) (m_targets p)) ps /\
     Forall2 (fun pos h => exists r i, slot R r i /\ pos = enc R r i /\ h = nh H (leaf_at ls) (N.to_nat r) i) ps (m_proof p)).
Proof. exact (C06_lem H f us ls hs R). Qed.
Print Assumptions C06_prove.

Example C06_example : exists f us, reachable ex_H f us /\ holds_leaves f ex_ls' /\ is_height (f_n f) 3 /\
  NoDup [16; 10] /\ (forall h, h ∈ [16; 10] -> h ∈ ex_ls').
Proof.
  destruct ex_history as (_ & u0 & u & f' & _ & _ & _ & _ & _ & Hr & Hh & Hn). exists f', [u; u0]. rewrite Hn. split; [done|]. split; [done|].
  split; [apply PosFacts.NumRows_height; vm_compute; reflexivity|]. split; [apply (bool_decide_unpack _); by vm_compute|]. 
  apply Forall_forall. apply (bool_decide_unpack _). by vm_compute.
Qed.

(** C10, proofs: forests that agree (as after Commit and Restore) prove the same. *)
Theorem C10_same_proofs f g hs : same_forest f g -> f_n f <= 2 ^ 62 -> F_Prove f hs = F_Prove g hs.
Proof. exact (C10_proofs_lem f g hs). Qed.
Print Assumptions C10_same_proofs.

(** C21: ProofPositions returns exactly the minimal proof and the computed
    nodes, each once, row by row from the bottom and left to right. *)
Theorem C21_proof_positions n R ts : n <= 2 ^ 62 -> is_height n R -> valid_targets n ts ->
  exists P C, ProofPositions n ts = Ok (P, C) /\ lists_nodes R (needed n ts) P /\ lists_nodes R (computed n ts) C.
Proof. exact (C21_lem n R ts). Qed.
Print Assumptions C21_proof_positions.

Theorem C21_disjoint n R ts P C p : n <= 2 ^ 62 -> is_height n R -> valid_targets n ts ->
  ProofPositions n ts = Ok (P, C) -> p ∈ P -> p ∉ C.
Proof. exact (C21_disjoint_lem n R ts P C p). Qed.
Print Assumptions C21_disjoint.

Example C21_example : 7 <= 2 ^ 62 /\ is_height 7 3 /\ valid_targets 7 ex_ts /\
  ProofPositions 7 ex_ts = Ok ([0; 3; 4], [1; 2; 5; 8; 9; 10; 12]).
Proof.
  split; [done|]. split; [apply PosFacts.NumRows_height; vm_compute; reflexivity|]. split; [exact ex_valid|]. vm_compute; reflexivity.
Qed.

(** C23: CheckSanity. *)
Theorem C23_check_sanity n R p : n <= 2 ^ 62 -> is_height n R -> m_sorted_targets p = sortN (m_targets p) ->
  exists b, bp_CheckSanity p n = Ok b /\
    (b = true <-> NoDup (m_targets p) /\ Forall (fun t => t < n) (m_targets p) /\
       exists ps, lists_nodes R (needed n (m_targets p)) ps /\ size (m_proof p) <= size ps).
Proof. exact (C23_lem n R p). Qed.
Print Assumptions C23_check_sanity.

Example C23_example : let p := BatchProof [5; 1; 2] [100; 103; 104] in let q := BatchProof [5; 1; 2] [100; 103; 104; 105] in
  is_height 7 3 /\ m_sorted_targets p = sortN (m_targets p) /\ m_sorted_targets q = sortN (m_targets q) /\
  bp_CheckSanity p 7 = Ok true /\ bp_CheckSanity q 7 = Ok false.
Proof. split; [apply PosFacts.NumRows_height|]; vm_compute; repeat split. Qed.
