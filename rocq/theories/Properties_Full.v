(** * Properties of a Pollard told to remember every leaf: C70 *)
From Verif Require Import Base StateModel CodecModel ForestModel PollardModel PosSpec MerkleSpec ForestSpec ProofSpec PollardSpec FullSpec FullFacts.

(** C70: a pollard told to remember every leaf behaves like the forest.  It needs no
    proof to delete leaves: it can follow whatever the forest does. *)
Theorem C70_full_progress H f p (adds : list leaf) ts f' : full_history H f p -> f_n f + size adds < 2 ^ 31 + size ts ->
  F_Modify H f adds ts = Ok (true, f') -> exists p', P_Modify H p adds ts = Ok (true, p').
Proof. exact (C70_progress_lem H f p adds ts f'). Qed.
Print Assumptions C70_full_progress.

(** It has the same roots and number of leaves, *)
Theorem C70_full_roots H f p : full_history H f p -> P_Roots p = Ok (F_Roots f) /\ p_n p = f_n f.
Proof. exact (C70_roots_lem H f p). Qed.
Print Assumptions C70_full_roots.

(** the same position map (compare C44, where some leaves are not remembered), *)
Theorem C70_full_positions H f p : full_history H f p -> p_posmap p = f_posmap f.
Proof. exact (C70_posmap_lem H f p). Qed.
Print Assumptions C70_full_positions.

(** the same hash at every node, *)
Theorem C70_full_read H f p R r i : full_history H f p -> is_height (f_n f) R -> node (f_n f) r i ->
  exists h, P_Read p (enc R r i) = Ok (Some h) /\ F_Read f (enc R r i) = Ok h.
Proof. exact (C70_read_lem H f p R r i). Qed.
Print Assumptions C70_full_read.

(** and the same proof, or refusal, for every list of hashes (compare C30). *)
Theorem C70_full_prove H f p hs : full_history H f p -> P_Prove p hs = F_Prove f hs.
Proof. exact (C70_prove_lem H f p hs). Qed.
Print Assumptions C70_full_prove.

(** It accepts its own proofs (compare C44). *)
Theorem C70_full_own_proof H f p hs bp ths : full_history H f p -> P_Prove p hs = Ok (Some bp) ->
  Forall2 (λ t h, F_GetLeaf f t = Ok h) (m_sorted_targets bp) ths -> exists p', P_Verify H p bp ths = Ok (true, p').
Proof. exact (C70_own_lem H f p hs bp ths). Qed.
Print Assumptions C70_full_own_proof.

(** Eight leaves; three are deleted without a proof and one is added.  Leaf 17 moves
    from position 7 to position 3, and the pollard proves it there. *)
Example C70_example H : exists f p f' p' bp, full_history H f p /\ p_posmap p !! 17 = Some 7 /\
  F_Modify H f [(20, true)] [1; 2; 5] = Ok (true, f') /\ P_Modify H p [(20, true)] [1; 2; 5] = Ok (true, p') /\
  full_history H f' p' /\ p_posmap p' !! 17 = Some 3 /\ P_Prove p' [20; 17] = Ok (Some bp) /\ m_targets bp = [5; 3].
Proof. exact (ex_full H). Qed.
