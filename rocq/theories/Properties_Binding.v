(** * Properties of roots and accepted proofs: C56 to C58 *)
From Verif Require Import Base StateModel CodecModel ForestModel PollardModel PosSpec MerkleSpec ForestSpec PollardSpec HistFacts
  ForestExamples PollardExamples BindFacts UniqueFacts.

(** C56: the number of leaves and the roots determine the leaves.  Two forests
    that agree on both hold the same leaves in the same order, or the Merkle hashes
    of the two forests contain two pairs with the same [H] at the same node. *)
Theorem C56_roots_bind H f us f' us' ls ls' : reachable H f us -> reachable H f' us' -> holds_leaves f ls -> holds_leaves f' ls' ->
  f_n f = f_n f' -> F_Roots f = F_Roots f' -> ls = ls' \/ exists r d, node (f_n f) (N.of_nat (S r)) d /\
    (nh H (leaf_at ls) r (2 * d), nh H (leaf_at ls) r (2 * d + 1)) <> (nh H (leaf_at ls') r (2 * d), nh H (leaf_at ls') r (2 * d + 1)) /\
    H (nh H (leaf_at ls) r (2 * d)) (nh H (leaf_at ls) r (2 * d + 1)) = H (nh H (leaf_at ls') r (2 * d)) (nh H (leaf_at ls') r (2 * d + 1)).
Proof. exact (C56_lem H f us f' us' ls ls'). Qed.
Print Assumptions C56_roots_bind.

(** The same for two pollards, which store little more than the roots. *)
Theorem C56_pollards_bind H f p f' p' ls ls' : synced H f p -> synced H f' p' -> holds_leaves f ls -> holds_leaves f' ls' ->
  p_n p = p_n p' -> P_Roots p = P_Roots p' -> ls = ls' \/ exists r d, node (f_n f) (N.of_nat (S r)) d /\
    (nh H (leaf_at ls) r (2 * d), nh H (leaf_at ls) r (2 * d + 1)) <> (nh H (leaf_at ls') r (2 * d), nh H (leaf_at ls') r (2 * d + 1)) /\
    H (nh H (leaf_at ls) r (2 * d)) (nh H (leaf_at ls) r (2 * d + 1)) = H (nh H (leaf_at ls') r (2 * d)) (nh H (leaf_at ls') r (2 * d + 1)).
Proof. exact (C56_pollard_lem H f p f' p' ls ls'). Qed.
Print Assumptions C56_pollards_bind.

(** The toy hash has collisions, and two forests with the same roots hold different
    leaves; both cases of the theorem occur. *)
Example C56_example : exists f f', reachable ex_H f [] /\ reachable ex_H f' [] /\ holds_leaves f [10; 11] /\ holds_leaves f' [15; 8] /\
  f_n f = f_n f' /\ F_Roots f = F_Roots f'.
Proof. exact ex_clash. Qed.

(** C57: a pollard accepts only the proof the forest makes, possibly with some
    hashes left out, unless the pollard then shows a collision.  So no hash of an
    accepted proof can be changed, added or moved. *)
Theorem C57_accepted_proofs H f p bp ths p' ls : synced H f p -> holds_leaves f ls -> proof_wf bp -> P_Verify H p bp ths = Ok (true, p') ->
  shows_collision H p' ls \/ exists q, F_Prove f ths = Ok (Some q) /\ m_sorted_targets q = m_sorted_targets bp /\ m_proof bp `sublist_of` m_proof q.
Proof. exact (C57_lem H f p bp ths p' ls). Qed.
Print Assumptions C57_accepted_proofs.

(** The forest's proof is accepted; a proof with a hash left out is accepted by a pollard that stores it; with the
    toy hash a forged proof is accepted as well. *)
Example C57_example : (exists f p bp v, synced ex_H f p /\ holds_leaves f ex_ls /\ F_Prove f [11; 12; 15] = Ok (Some bp) /\ P_Verify ex_H p bp [11; 12; 15] = Ok (true, v)) /\
  (exists f p v, synced ex_H f p /\ holds_leaves f [10; 11] /\ P_Verify ex_H p (BatchProof [0] []) [10] = Ok (true, v)) /\
  (exists f p v, synced ex_H f p /\ holds_leaves f [10; 11] /\ P_Verify ex_H p (BatchProof [0] [8]) [15] = Ok (true, v)).
Proof. exact ex_accepted. Qed.

(** C58 is false: whether a pollard accepts a proof depends on more than its roots. *)
Theorem C58_verdict_refuted : exists H f p1 p2 bp ths p1' p2', synced H f p1 /\ synced H f p2 /\ P_Roots p1 = P_Roots p2 /\ p_n p1 = p_n p2 /\
  P_Verify H p1 bp ths = Ok (true, p1') /\ P_Verify H p2 bp ths = Ok (false, p2').
Proof. exact C58_refuted_lem. Qed.
Print Assumptions C58_verdict_refuted.

(** What remains: a proof with all hashes that one pollard accepts is accepted by
    every pollard of that forest.  Missing: proofs with hashes left out. *)
Theorem C58_verdict_partial H f p1 p2 bp ths p1' ls q : synced H f p1 -> synced H f p2 -> holds_leaves f ls -> proof_wf bp -> P_Verify H p1 bp ths = Ok (true, p1') ->
  F_Prove f ths = Ok (Some q) -> (length (m_proof q) <= length (m_proof bp))%nat ->
  shows_collision H p1' ls \/ (m_proof bp = m_proof q /\ exists p2', P_Verify H p2 bp ths = Ok (true, p2')).
Proof. exact (C58_partial_lem H f p1 p2 bp ths p1' ls q). Qed.
Print Assumptions C58_verdict_partial.

Example C58_example : exists f p1 p2 bp v, synced ex_H f p1 /\ synced ex_H f p2 /\ holds_leaves f ex_ls /\ P_NumCachedLeaves p1 = 2 /\ P_NumCachedLeaves p2 = 0 /\
  P_Verify ex_H p1 bp [11; 12; 15] = Ok (true, v) /\ F_Prove f [11; 12; 15] = Ok (Some bp) /\ length (m_proof bp) = 3%nat.
Proof. exact ex_two_pollards. Qed.
