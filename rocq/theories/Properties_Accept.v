(** * Properties of Verify: C40, C58, C76 and C77 (theorems) *)
From Verif Require Import Base StateModel CodecModel ForestModel PollardModel PosSpec ProofSpec VerifySpec MerkleSpec ForestSpec PollardSpec HistFacts
  ForestExamples PollardExamples UniqueFacts AcceptFacts AcceptExamples.

(** C40, exactly: Verify is undefined for the proofs whose hashes run out before a
    needed node at which the pollard stores the zero hash, with valid targets and as
    many target hashes.  It returns for all other proofs. *)
Theorem C40_verify_exact H f p bp ths ls : synced H f p -> holds_leaves f ls -> proof_wf bp ->
  let bad := valid_targets (size ls) (m_sorted_targets bp) /\ length ths = length (m_sorted_targets bp) /\ overruns p (m_sorted_targets bp) (m_proof bp) in
  (P_Verify H p bp ths = UB <-> bad) /\ (~ bad <-> exists b p', P_Verify H p bp ths = Ok (b, p')).
Proof. exact (C40_exact_lem H f p bp ths ls). Qed.
Print Assumptions C40_verify_exact.

Example C40_exact_example H : exists f p, synced H f p /\ holds_leaves f [0; 5] /\ proof_wf (BatchProof [1] []) /\ P_Verify H p (BatchProof [1] []) [5] = UB.
Proof. exact (ex_overrun H). Qed.

(** C76: a proof is accepted if its targets are valid, the target hashes are those of
    the leaves, and the proof together with what the pollard stores gives every
    needed node the hash it has in the forest. *)
Theorem C76_accepts H f p bp ths ls : synced H f p -> holds_leaves f ls -> proof_wf bp ->
  valid_targets (size ls) (m_sorted_targets bp) -> ths = leaf_at ls <$> m_sorted_targets bp -> fills f p (m_sorted_targets bp) (m_proof bp) ->
  exists p', P_Verify H p bp ths = Ok (true, p').
Proof. exact (C76_accepts_lem H f p bp ths ls). Qed.
Print Assumptions C76_accepts.

(** No other proof is accepted, unless the pollard then shows a collision. *)
Theorem C76_only H f p bp ths p' ls : synced H f p -> holds_leaves f ls -> proof_wf bp -> P_Verify H p bp ths = Ok (true, p') ->
  shows_collision H p' ls \/ (valid_targets (size ls) (m_sorted_targets bp) /\ ths = leaf_at ls <$> m_sorted_targets bp /\ fills f p (m_sorted_targets bp) (m_proof bp)).
Proof. exact (C76_only_lem H f p bp ths p' ls). Qed.
Print Assumptions C76_only.

(** A proof with one of three hashes, accepted by a pollard that stores the others;
    the same proof with a wrong target hash is rejected. *)
Example C76_example : exists f p v w, synced ex_H f p /\ holds_leaves f adds76.*1 /\ proof_wf bp76 /\ valid_targets (size adds76.*1) (m_sorted_targets bp76) /\
  [11; 14] = leaf_at adds76.*1 <$> m_sorted_targets bp76 /\ fills f p (m_sorted_targets bp76) (m_proof bp76) /\
  P_Verify ex_H p bp76 [11; 14] = Ok (true, v) /\ verifies ex_H f p bp76 [11; 99] false w.
Proof. exact ex_accept. Qed.

(** C58, what else holds: a pollard accepts every proof that is accepted by a pollard
    that stores less. *)
Theorem C58_more_partial H f p1 p2 bp ths p1' ls : synced H f p1 -> synced H f p2 -> holds_leaves f ls -> stores_more p1 p2 -> proof_wf bp ->
  P_Verify H p1 bp ths = Ok (true, p1') -> shows_collision H p1' ls \/ exists p2', P_Verify H p2 bp ths = Ok (true, p2').
Proof. exact (C58_more_lem H f p1 p2 bp ths p1' ls). Qed.
Print Assumptions C58_more_partial.

(** A pollard built from the roots, and one that remembers a leaf. *)
Example C58_more_example : exists f p q v, synced ex_H f q /\ synced ex_H f p /\ holds_leaves f adds76.*1 /\ stores_more q p /\
  P_Verify ex_H q (BatchProof [1; 4] [10; 15; 102]) [11; 14] = Ok (true, v).
Proof. exact ex_more. Qed.

(** C77: verifying a proof, accepted or not, makes no proof rejected that was accepted
    before. *)
Theorem C77_keeps H f p bp ths b p' bq thq q ls : synced H f p -> holds_leaves f ls -> verifies H f p bp ths b p' -> proof_wf bq ->
  P_Verify H p bq thq = Ok (true, q) -> shows_collision H q ls \/ exists q', P_Verify H p' bq thq = Ok (true, q').
Proof. exact (C77_lem H f p bp ths b p' bq thq q ls). Qed.
Print Assumptions C77_keeps.

(** An accepted proof is accepted again. *)
Theorem C77_again H f p bp ths p' ls : synced H f p -> holds_leaves f ls -> proof_wf bp -> P_Verify H p bp ths = Ok (true, p') ->
  shows_collision H p' ls \/ exists p'', P_Verify H p' bp ths = Ok (true, p'').
Proof. exact (C77_again_lem H f p bp ths p' ls). Qed.
Print Assumptions C77_again.

(** A rejected proof changes no later verdict. *)
Theorem C77_rejected H f p bp ths p' bq thq ls : synced H f p -> holds_leaves f ls -> verifies H f p bp ths false p' -> proof_wf bq ->
  (P_Verify H p' bq thq = UB <-> P_Verify H p bq thq = UB) /\
  forall b q b' q', P_Verify H p bq thq = Ok (b, q) -> P_Verify H p' bq thq = Ok (b', q') -> b = b' \/ shows_collision H q ls \/ shows_collision H q' ls.
Proof. exact (C77_reject_lem H f p bp ths p' bq thq ls). Qed.
Print Assumptions C77_rejected.

(** [C76_example] contains an accepted proof and a rejected one of one pollard. *)
Example C77_example : exists f p v w, synced ex_H f p /\ holds_leaves f adds76.*1 /\ proof_wf bp76 /\
  P_Verify ex_H p bp76 [11; 14] = Ok (true, v) /\ verifies ex_H f p bp76 [11; 99] false w.
Proof. destruct ex_accept as (f & p & v & w & H1 & H2 & H3 & _ & _ & _ & H4 & H5). by exists f, p, v, w. Qed.
