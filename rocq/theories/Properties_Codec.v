(** * Properties of the wire formats: C13 - C18, the codec part of C37, C22 *)
From Verif Require Import Base StateModel CodecModel CodecSpec CodecFacts PosSpec TargetFacts.

(** C13: a proof with 32 bit targets round-trips through a fresh object, and its
    bytes are the documented format. *)
Theorem C13_batchproof_roundtrip ts hs :
  fits 4 ts -> fits 32 hs -> 8 + 4 * size ts + 32 * size hs < 2 ^ 31 ->
  exists bytes, bp_Serialize (BatchProof ts hs) = Ok bytes /\ bytes = proof_format ts hs /\
    bp_Unserialize BatchProofNull bytes = Ok (true, BatchProof ts hs).
Proof. exact (bp_roundtrip ts hs). Qed.
Print Assumptions C13_batchproof_roundtrip.

Example C13_example : fits 4 [7; 3] /\ fits 32 [2 ^ 255 + 1] /\
  8 + 4 * size [7; 3] + 32 * size [2 ^ 255 + 1] < 2 ^ 31.
Proof. unfold fits. repeat constructor. Qed.

(** C14: decoding any byte string terminates in bounds, accepts exactly the
    documented format, re-encodes to the input, and leaves the object alone
    when it rejects. *)
Theorem C14_batchproof_canonical p bytes : byte_string bytes -> size bytes < 2 ^ 31 ->
  exists b p', bp_Unserialize p bytes = Ok (b, p') /\
    (b = true <-> exists ts hs, fits 4 ts /\ fits 32 hs /\ bytes = proof_format ts hs) /\
    (b = true -> bp_Serialize p' = Ok bytes) /\
    (b = false -> p' = p).
Proof. exact (bp_canonical p bytes). Qed.
Print Assumptions C14_batchproof_canonical.

(** C14, in terms of the header: acceptance depends on the length only. *)
Theorem C14_batchproof_length p x y c : x < 2 ^ 32 -> y < 2 ^ 32 -> byte_string c ->
  let bytes := be 4 x ++ be 4 y ++ c in size bytes < 2 ^ 31 ->
  exists b p', bp_Unserialize p bytes = Ok (b, p') /\
    (b = true <-> size bytes = 8 + 4 * x + 32 * y).
Proof. exact (bp_accept_length p x y c). Qed.
Print Assumptions C14_batchproof_length.

Example C14_example : byte_string [0;0;0;1; 0;0;0;0; 0;0;1;2] /\
  bp_Unserialize BatchProofNull [0;0;0;1; 0;0;0;0; 0;0;1;2] = Ok (true, BatchProof [258] []) /\
  bp_Unserialize BatchProofNull [0;0;0;1; 0;0;0;0; 0;0;1] = Ok (false, BatchProofNull).
Proof. split; [repeat constructor|]. split; vm_compute; reflexivity. Qed.

(** C15 is false: targets are 64 bit in memory, 32 bit on the wire. *)
Theorem C15_batchproof_injective_refuted : exists p q bytes,
  Forall (fun t => t < 2 ^ 64) (m_targets p) /\ Forall (fun t => t < 2 ^ 64) (m_targets q) /\
  bp_Serialize p = Ok bytes /\ bp_Serialize q = Ok bytes /\ m_targets p <> m_targets q.
Proof.
  exists (BatchProof [0] []), (BatchProof [2 ^ 32] []), [0;0;0;1; 0;0;0;0; 0;0;0;0].
  repeat split; [repeat constructor..|done].
Qed.
Print Assumptions C15_batchproof_injective_refuted.

(** What is true of C15: injectivity on proofs with 32 bit targets. Missing: larger
    targets, for which the claim is false. *)
Theorem C15_batchproof_injective_partial p q bytes :
  fits 4 (m_targets p) -> fits 4 (m_targets q) -> fits 32 (m_proof p) -> fits 32 (m_proof q) ->
  bp_Serialize p = Ok bytes -> bp_Serialize q = Ok bytes ->
  m_targets p = m_targets q /\ m_proof p = m_proof q.
Proof. exact (bp_injective_32 p q bytes). Qed.
Print Assumptions C15_batchproof_injective_partial.

Example C15_example : fits 4 [5] /\
  bp_Serialize (BatchProof [5] []) = Ok [0;0;0;1; 0;0;0;0; 0;0;0;5].
Proof. split; [repeat constructor|vm_compute; reflexivity]. Qed.

(** C16 is false: the sorted targets of a reused object survive. *)
Theorem C16_unserialize_overwrites_refuted : exists p bytes p',
  bp_Unserialize p bytes = Ok (true, p') /\ m_sorted_targets p' <> sortN (m_targets p').
Proof.
  exists (BatchProof [9] []), [0;0;0;0; 0;0;0;0], (BatchProofRaw [] [9] []).
  split; [vm_compute; reflexivity|discriminate].
Qed.
Print Assumptions C16_unserialize_overwrites_refuted.

(** What is true of C16: objects without sorted targets, e.g. fresh ones. *)
Theorem C16_unserialize_fresh_partial p bytes p' : m_sorted_targets p = [] ->
  bp_Unserialize p bytes = Ok (true, p') -> m_sorted_targets p' = sortN (m_targets p').
Proof. exact (bp_unserialize_fresh p bytes p'). Qed.
Print Assumptions C16_unserialize_fresh_partial.

Example C16_example :
  m_sorted_targets BatchProofNull = [] /\
  bp_Unserialize BatchProofNull [0;0;0;2; 0;0;0;0; 0;0;0;9; 0;0;0;4] =
    Ok (true, BatchProofRaw [9;4] [4;9] []).
Proof. split; vm_compute; reflexivity. Qed.

(** C17: undo batches with 32 bit contents round-trip, into any object. *)
Theorem C17_undobatch_roundtrip u adds ts hs :
  adds < 2 ^ 32 -> fits 4 ts -> fits 32 hs -> length ts = length hs -> 8 + 36 * size ts < 2 ^ 31 ->
  exists bytes, ub_Serialize (UndoBatch adds ts hs) = Ok bytes /\ bytes = undo_format adds ts hs /\
    ub_Unserialize u bytes = Ok (true, UndoBatch adds ts hs).
Proof. exact (ub_roundtrip u adds ts hs). Qed.
Print Assumptions C17_undobatch_roundtrip.

Example C17_example : 3 < 2 ^ 32 /\ fits 4 [4; 6] /\ fits 32 [11; 12] /\ length [4; 6] = length [11; 12] /\
  8 + 36 * size [4; 6] < 2 ^ 31.
Proof. unfold fits. repeat constructor. Qed.

(** C18 is false: the length check is done modulo 2^32, so an 8 byte buffer whose
    header announces 2^30 deletions passes it and is read past its end. *)
Theorem C18_undobatch_safe_refuted : exists u bytes,
  byte_string bytes /\ size bytes = 8 /\ ub_Unserialize u bytes = UB.
Proof.
  exists (UndoBatch 0 [] []), [0;0;0;0; 64;0;0;0].
  split; [repeat constructor|]. split; vm_compute; reflexivity.
Qed.
Print Assumptions C18_undobatch_safe_refuted.

(** What is true of C18: if the header announces fewer than 2^26 deletions, decoding is
    safe, exact and canonical.  Missing: larger counts, for which it is false. *)
Theorem C18_undobatch_safe_partial u adds k c : adds < 2 ^ 32 -> k < 2 ^ 26 -> byte_string c ->
  let bytes := be 4 adds ++ be 4 k ++ c in size bytes < 2 ^ 31 ->
  exists b u', ub_Unserialize u bytes = Ok (b, u') /\
    (b = true <-> size bytes = 8 + 36 * k) /\
    (b = true -> ub_Serialize u' = Ok bytes) /\
    (b = false -> m_deleted_positions u' = m_deleted_positions u /\ m_deleted_hashes u' = m_deleted_hashes u).
Proof. exact (ub_canonical_small u adds k c). Qed.
Print Assumptions C18_undobatch_safe_partial.

Example C18_example : let c := [0;0;0;7] ++ be_bytes 32 5 in
  byte_string c /\ size (be 4 2 ++ be 4 1 ++ c) = 8 + 36 * 1.
Proof. split; [repeat constructor|vm_compute; reflexivity]. Qed.

(** C37, codec part: the equality operators compare the contents. *)
Theorem C37_batchproof_eq p q : bp_eqb p q = true <-> m_targets p = m_targets q /\ m_proof p = m_proof q.
Proof. exact (bp_eqb_iff p q). Qed.
Print Assumptions C37_batchproof_eq.
Theorem C37_undobatch_eq u v : ub_eqb u v = true <-> u = v.
Proof. exact (ub_eqb_iff u v). Qed.
Print Assumptions C37_undobatch_eq.
Example C37_example : bp_eqb (BatchProof [1;2] [5]) (BatchProof [1;2] [6]) = false.
Proof. vm_compute; reflexivity. Qed.

(** C22: the target check accepts exactly the valid target lists, and never fails
    otherwise. *)
Theorem C22_targets_sanity n ts :
  exists b, CheckTargetsSanity n ts = Ok b /\ (b = true <-> valid_targets n ts).
Proof. exact (CheckTargetsSanity_iff n ts). Qed.
Print Assumptions C22_targets_sanity.
Example C22_example : valid_targets 5 [0; 2; 4] /\ CheckTargetsSanity 5 [0; 2; 5] = Ok false.
Proof. split; [split; repeat constructor|vm_compute; reflexivity]. Qed.
