(** * Properties of exchanging two subtrees of a pollard: C71 *)
From Verif Require Import Base StateModel CodecModel ForestModel PollardModel PosSpec MerkleSpec ForestSpec ProofSpec PollardSpec SwapSpec SwapFacts.

(** C71: SwapSubTrees exchanges the stored parts of two subtrees, also when the sibling of
    one of the two nodes is not stored: then it creates a node with the hash zero in the
    sibling's place, where Read finds it. *)
Theorem C71_swap H f p R j a b : synced H f p -> is_height (f_n f) R -> node (f_n f) j a -> node (f_n f) j b -> a <> b ->
  stored_at p (enc R j a) -> stored_at p (enc R j b) \/ b = sib a ->
  exists p' q, P_SwapSubTrees p (enc R j a) (enc R j b) = Ok (p', q) /\ p_n p' = p_n p /\ p_posmap p' = p_posmap p /\
    forall r i, node (f_n f) r i -> P_Read p' (enc R r i) = read_filled p R j a b r (exchanged j a b r i).
Proof. exact (C71_swap_lem H f p R j a b). Qed.
Print Assumptions C71_swap.

(** In all other cases it does not return. *)
Theorem C71_only H f p R j a b p' q : synced H f p -> is_height (f_n f) R -> node (f_n f) j a -> node (f_n f) j b ->
  P_SwapSubTrees p (enc R j a) (enc R j b) = Ok (p', q) -> stored_at p (enc R j a) /\ (stored_at p (enc R j b) \/ b = sib a).
Proof. exact (C71_only_lem H f p R j a b p' q). Qed.
Print Assumptions C71_only.

(** Eight leaves of which 10 (position 0) and 15 (position 5) are remembered.  Node 9 is
    stored, its sibling 8 and leaf 2 are not.  Exchanging the two siblings puts leaf 10 in
    position 2, and a node with the hash zero in position 9. *)
Example C71_example H : exists f p p' q, synced H f p /\ holds_leaves f [10; 11; 12; 13; 14; 15; 16; 17] /\ P_SwapSubTrees p 9 8 = Ok (p', q) /\
  P_Read p 8 = Ok None /\ P_Read p 2 = Ok None /\ P_Read p' 9 = Ok (Some 0) /\ P_Read p' 2 = Ok (Some 10).
Proof. exact (ex_swap H). Qed.
