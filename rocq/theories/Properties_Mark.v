(** * Property C80 and the exact form of C29 and C55 (theorems) *)
From Verif Require Import Base StateModel CodecModel ForestModel PollardModel CheckedModel PosSpec ProofSpec MerkleSpec ForestSpec PollardSpec MarkSpec HistFacts
  ForestExamples PollardExamples MarkFacts CheckedExact MarkExamples.

(** C29 is false, but exactly these leaves are marked by a rejected proof: if it is
    rejected only in the comparison of hashes, its targets up to the first one that
    is stored with another hash, where the node that keeps the marker was stored. *)
Theorem C29_rejected_exact H f p bp ths p' t : synced H f p -> proof_wf bp -> P_Verify H p bp ths = Ok (false, p') -> t < f_n f ->
  remembers p' t <-> remembers p t \/ marks p bp ths t.
Proof. exact (C29_exact_lem H f p bp ths p' t). Qed.
Print Assumptions C29_rejected_exact.

(** A rejected proof of leaves 10 and 11, with hash 12 for the second, marks leaf 10. *)
Example C29_exact_example : exists f p v, keeps ex_H f p {[11]} /\ holds_leaves f [10; 11] /\ P_Verify ex_H p (BatchProof [0; 1] []) [10; 12] = Ok (false, v) /\ keeps ex_H f v {[10; 11]} /\
  marks p (BatchProof [0; 1] []) [10; 12] 0 /\ ~ marks p (BatchProof [0; 1] []) [10; 12] 1.
Proof. destruct ex_marks as (f & p & v & H1 & H2 & H3 & H4 & H5 & H6 & _). by exists f, p, v. Qed.

(** C80: the remembered leaves are those that the history, rejected proofs included,
    made it remember: [keeps] is defined from the history alone. *)
Theorem C80_remembered_exact H f p s : keeps H f p s ->
  synced H f p /\ P_NumCachedLeaves p = N.of_nat (base.size s) /\
  (forall h, h ∈ s -> exists t, t < f_n f /\ F_GetLeaf f t = Ok h) /\ forall t h, t < f_n f -> F_GetLeaf f t = Ok h -> (remembers p t <-> h ∈ s).
Proof. exact (C80_lem H f p s). Qed.
Print Assumptions C80_remembered_exact.

(** This covers every history. *)
Theorem C80_all_histories H f p : synced H f p -> exists s, keeps H f p s.
Proof. exact (C80_all_lem H f p). Qed.
Print Assumptions C80_all_histories.

Example C80_example : exists f p, keeps ex_H f p {[10]} /\ P_NumCachedLeaves p = 1.
Proof. destruct ex_unknown as (f & p & _ & _ & Hk & _). exists f, p. split; [exact Hk|]. by destruct (C80_remembered_exact ex_H f p _ Hk) as (_ & -> & _). Qed.

(** C55 is false, but the check of Verify fails exactly on these proofs. *)
Theorem C55_check_exact H f p bp ths r : synced H f p -> proof_wf bp -> P_Verify H p bp ths = Ok r ->
  (unknown_target p bp ths /\ VP_Verify H p bp ths = Abort) \/ (~ unknown_target p bp ths /\ VP_Verify H p bp ths = Ok r).
Proof. exact (C55_exact_lem H f p bp ths r). Qed.
Print Assumptions C55_check_exact.

(** An honest proof on which it fails, after the rejected proof above and the
    deletion of leaf 11. *)
Example C55_exact_example : exists f p pf x, keeps ex_H f p {[10]} /\ F_Prove f [10] = Ok (Some pf) /\ proof_wf pf /\ P_Verify ex_H p pf [10] = Ok (true, x) /\ unknown_target p pf [10] /\ VP_Verify ex_H p pf [10] = Abort.
Proof. exact ex_unknown. Qed.
