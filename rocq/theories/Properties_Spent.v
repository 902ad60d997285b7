(** * Properties C82 and C83 (theorems) *)
From stdpp Require Import sorting.
From Verif Require Import Base CodecModel ForestModel PollardModel PosSpec MerkleSpec ForestSpec PollardSpec SpentSpec ForestExamples SpentFacts.

(** C82: a deleted leaf cannot be proved any more, until it is added again.  The
    forest makes no proof of it, whatever is proved with it; and a pollard accepts no
    proof of it, whoever made it, unless it then shows a collision. *)
Theorem C82_deleted_leaves H f us (adds : list leaf) ts f1 t h s f2 : reachable H f us -> t ∈ ts -> F_GetLeaf f t = Ok h -> f_n f + size adds < 2 ^ 31 + size ts ->
  F_Modify H f adds ts = Ok (true, f1) -> h ∉ adds.*1 -> later H f1 s f2 -> h ∉ s ->
  (forall hs, h ∈ hs -> F_Prove f2 hs = Ok None) /\
  forall p bp ths p' ls, synced H f2 p -> holds_leaves f2 ls -> proof_wf bp -> h ∈ ths -> P_Verify H p bp ths = Ok (true, p') -> shows_collision H p' ls.
Proof. exact (C82_lem H f us adds ts f1 t h s f2). Qed.
Print Assumptions C82_deleted_leaves.

(** The leaf 11 is deleted from three leaves; then another leaf is deleted and two
    are added. *)
Example C82_example : exists f f1 f2 p, reachable ex_H f [] /\ F_GetLeaf f 1 = Ok 11 /\
  f_n f + size [(13, false)] < 2 ^ 31 + size [1] /\ F_Modify ex_H f [(13, false)] [1] = Ok (true, f1) /\ later ex_H f1 [14; 15] f2 /\ synced ex_H f2 p.
Proof. exact (run82_inv ex_H run82_ok). Qed.

(** C83 is false: an honest proof is rejected with the hashes in the order in which
    they were given to Prove. *)
Theorem C83_hash_order_refuted : exists f p bp p', synced ex_H f p /\ F_Prove f [11; 10] = Ok (Some bp) /\ m_targets bp = [1; 0] /\
  P_Verify ex_H p bp [11; 10] = Ok (false, p').
Proof. exact (run83_inv ex_H run83_ok). Qed.
Print Assumptions C83_hash_order_refuted.

(** That order is accepted exactly if it is the order of the positions, or the pollard
    then shows a collision. *)
Theorem C83_hash_order_exact H f p hs bp : synced H f p -> F_Prove f hs = Ok (Some bp) ->
  (StronglySorted N.lt (m_targets bp) -> exists p', P_Verify H p bp hs = Ok (true, p')) /\
  (forall p' ls, holds_leaves f ls -> P_Verify H p bp hs = Ok (true, p') -> shows_collision H p' ls \/ StronglySorted N.lt (m_targets bp)).
Proof. exact (C83_exact_lem H f p hs bp). Qed.
Print Assumptions C83_hash_order_exact.

(** Some order is accepted always. *)
Theorem C83_hash_order_partial H f p hs bp : synced H f p -> F_Prove f hs = Ok (Some bp) -> exists ths p', ths ≡ₚ hs /\ P_Verify H p bp ths = Ok (true, p').
Proof. exact (C83_sorted_lem H f p hs bp). Qed.
Print Assumptions C83_hash_order_partial.

(** [C83_hash_order_refuted] contains a forest, a pollard and an honest proof. *)
Example C83_example : exists f p bp, synced ex_H f p /\ F_Prove f [11; 10] = Ok (Some bp).
Proof. destruct C83_hash_order_refuted as (f & p & bp & _ & H1 & H2 & _). by exists f, p, bp. Qed.
