(** * LightSpec: pollards without a forest (specification) *)
From Verif Require Import Base CodecModel ForestModel PollardModel PosSpec MerkleSpec ForestSpec ProofSpec PollardSpec.

Section Light.
Context (H : hash -> hash -> hash).

(** The hashes a proof of the positions [ts] consists of, over the leaves [ls]. *)
Definition full_proof (ls : list hash) (ts : list N) (hs : list hash) : Prop :=
  exists R ps, is_height (size ls) R /\ lists_nodes R (needed (size ls) ts) ps /\
    Forall2 (λ pos h, exists r i, slot R r i /\ pos = enc R r i /\ h = nh H (leaf_at ls) (N.to_nat r) i) ps hs.

(** A pollard on its own, and the sequence of leaves it stands for; equal leaves may
    occur in it.  The pollard starts empty or from roots, verifies and rejects proofs, is
    pruned, and is modified after it accepted a proof of the targets or when it stores
    all that such a proof would provide. *)
Inductive light : pollard -> list hash -> Prop :=
| li_new : light (Pollard_new 0) []
| li_restore ls rs p : size ls < 2 ^ 31 -> roots_of H ls rs -> Pollard_restore rs (size ls) = Ok p -> light p ls
| li_verify p ls bp ths b p' : light p ls -> proof_wf bp -> P_Verify H p bp ths = Ok (b, p') -> ~ shows_collision H p' ls -> light p' ls
| li_prune p ls p' : light p ls -> P_Prune p = Ok p' -> light p' ls
| li_modify p ls bp ths p1 (adds : list leaf) p' : light p ls -> proof_wf bp -> P_Verify H p bp ths = Ok (true, p1) -> ~ shows_collision H p1 ls ->
    size ls + size adds < 2 ^ 31 + size (m_sorted_targets bp) -> P_Modify H p1 adds (m_sorted_targets bp) = Ok (true, p') ->
    light p' (spec_remove ls (m_sorted_targets bp) ++ adds.*1)
| li_stored p ls (adds : list leaf) ts p' : light p ls -> valid_targets (size ls) ts ->
    (forall R r i, is_height (size ls) R -> computed (size ls) ts r i \/ needed (size ls) ts r i -> exists v, P_Read p (enc R r i) = Ok (Some v)) ->
    size ls + size adds < 2 ^ 31 + size ts -> P_Modify H p adds ts = Ok (true, p') -> light p' (spec_remove ls ts ++ adds.*1).
End Light.
