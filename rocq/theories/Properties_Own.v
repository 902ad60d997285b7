(** * Property C79: the proofs a pollard makes (theorems) *)
From Verif Require Import Base StateModel CodecModel ForestModel PollardModel PosSpec ProofSpec VerifySpec MerkleSpec ForestSpec PollardSpec HistFacts
  ForestExamples PollardExamples UniqueFacts OwnFacts OwnExamples.

(** C79: Prove returns for every list of hashes; it gives a proof exactly if the
    position map has an entry for each hash, these are distinct leaf positions, and
    all needed nodes are stored.  The targets are then those entries and the hashes
    those stored. *)
Theorem C79_prove_exact H f p hs : synced H f p ->
  (exists r, P_Prove p hs = Ok r) /\
  forall bp, P_Prove p hs = Ok (Some bp) <->
    proof_wf bp /\ Forall2 (λ h t, p_posmap p !! h = Some t) hs (m_targets bp) /\ NoDup (m_targets bp) /\ Forall (λ t, t < p_n p) (m_targets bp) /\
    stored_proof p (m_targets bp) (m_proof bp).
Proof. exact (C79_exact_lem H f p hs). Qed.
Print Assumptions C79_prove_exact.

(** It is the proof the forest makes of the leaves that are at these positions,
    whether or not they are the leaves asked for (compare C44). *)
Theorem C79_forest_proof H f p hs bp ls : synced H f p -> holds_leaves f ls -> P_Prove p hs = Ok (Some bp) ->
  F_Prove f (leaf_at ls <$> m_targets bp) = Ok (Some bp).
Proof. exact (C79_forest_lem H f p hs bp ls). Qed.
Print Assumptions C79_forest_proof.

(** Every pollard of the same forest accepts it with the hashes of these leaves, and
    with no others unless it then shows a collision. *)
Theorem C79_verdict H f p q hs bp ls : synced H f p -> synced H f q -> holds_leaves f ls -> P_Prove p hs = Ok (Some bp) ->
  (exists q', P_Verify H q bp (leaf_at ls <$> m_sorted_targets bp) = Ok (true, q')) /\
  forall ths q', P_Verify H q bp ths = Ok (true, q') -> shows_collision H q' ls \/ ths = leaf_at ls <$> m_sorted_targets bp.
Proof. exact (C79_verdict_lem H f p q hs bp ls). Qed.
Print Assumptions C79_verdict.

(** A pollard with six leaves makes a proof of two of them, *)
Example C79_example : exists f p ls bp, synced ex_H f p /\ holds_leaves f ls /\ size ls = 6 /\ P_Prove p [110; 108] = Ok (Some bp) /\ m_targets bp = [4; 3] /\ m_proof bp = [107; 111; 861].
Proof. exact ex_own_some. Qed.
(** and another one has an entry for a leaf but not the nodes needed. *)
Example C79_refuses : exists f p, synced ex_H f p /\ p_n p = 6 /\ p_posmap p !! 109 = Some 5 /\ P_Prove p [109] = Ok None.
Proof. exact ex_own_none. Qed.
