(** * Properties of what a Pollard stores: C59, C60 *)
From Verif Require Import Base StateModel CodecModel ForestModel PollardModel PosSpec MerkleSpec ForestSpec ProofSpec PollardSpec PollardRecall ForestExamples PollardRefute PollardExamples MemoryFacts.

(** C59: a pollard stores nothing but roots and the proofs of leaves it was told to
    remember: every stored node that is no root lies on the path of such a leaf, or
    is the sibling of a node on that path. *)
Theorem C59_only_proofs_stored H f p lo hi R r x h : recalls H f p lo hi -> is_height (f_n f) R -> node (f_n f) r x -> P_Read p (enc R r x) = Ok (Some h) ->
  is_root (f_n f) r x \/ exists t ht, t < f_n f /\ F_GetLeaf f t = Ok ht /\ ht ∈ hi /\ t / 2 ^ (r + 1) = x / 2.
Proof. exact (C59_lem H f p lo hi R r x h). Qed.
Print Assumptions C59_only_proofs_stored.

(** So it stores, beside the roots, at most two nodes per row for each of these
    leaves. *)
Theorem C59_memory_bound H f p lo hi R : recalls H f p lo hi -> is_height (f_n f) R ->
  P_CountNodes p <= size (F_Roots f) + 2 * R * N.of_nat (base.size hi).
Proof. exact (C59_bound_lem H f p lo hi R). Qed.
Print Assumptions C59_memory_bound.

(** The node in row 1 at index 0 of the example is stored and no root; the leaf 14
    at position 2 is the reason. *)
Example C59_example : exists f p v, recalls ex_H f p {[14; 21]} {[14; 21]} /\ is_height (f_n f) 3 /\ node (f_n f) 1 0 /\ ~ is_root (f_n f) 1 0 /\
  P_Read p (enc 3 1 0) = Ok (Some v).
Proof. exact ex_memory. Qed.

(** C60: a leaf told to remember stays in the position map (at a position that may
    be wrong, see C44). *)
Theorem C60_remembered_known H f p lo hi h : recalls H f p lo hi -> h ∈ lo -> is_Some (p_posmap p !! h).
Proof. exact (λ Hr, recalls_keys H f p lo hi Hr h). Qed.
Print Assumptions C60_remembered_known.

Example C60_example : exists f p, recalls ex_H f p {[14; 21]} {[14; 21]} /\ holds_leaves f ex_ls' /\ P_NumCachedLeaves p = 2.
Proof. exact ex_cached. Qed.
