(** * Properties C61-C64: input from outside (theorems) *)
From Verif Require Import Base StateModel CodecModel ForestModel PollardModel FuzzModel PosSpec MerkleSpec CodecSpec ForestSpec PollardSpec ForestFacts ForestExamples TotalFacts FuzzFacts FuzzBig FuzzExamples.

(** C61: the functions of the position arithmetic that take target lists return for
    every list of numbers, whatever its order, length and contents. *)
Theorem C61_any_targets n ts : n <= 2 ^ 62 -> exists roots pc swaps leaf_swaps ok,
  RootPositions n = Ok roots /\ ProofPositions n ts = Ok pc /\ Transform n ts = Ok swaps /\ UndoTransform n ts = Ok leaf_swaps /\ CheckTargetsSanity n ts = Ok ok.
Proof. exact (any_targets_ok n ts). Qed.
Print Assumptions C61_any_targets.

Example C61_example : 7 <= 2 ^ 62 /\ CheckTargetsSanity 7 [5; 5; 2 ^ 64 - 1; 0] = Ok false /\
  exists swaps, Transform 7 [5; 5; 2 ^ 64 - 1; 0] = Ok swaps /\ length swaps = 3%nat.
Proof. exact ex_any_targets. Qed.

(** C62: the fuzz target batchproof never fails. *)
Theorem C62_fuzz_batchproof data : byte_string data -> fuzz_batchproof data = Ok tt.
Proof. exact (fuzz_batchproof_ok data). Qed.
Print Assumptions C62_fuzz_batchproof.

(** An input whose proof has one target and one hash, and is accepted. *)
Example C62_example : let data := [1; 1] ++ be 4 1 ++ be 4 1 ++ be 4 7 ++ be 32 9 in byte_string data /\
  exists q, bp_Unserialize BatchProofNull (drop 2 data) = Ok (true, q).
Proof. exact ex_fuzz_batchproof. Qed.

(** C63: the fuzz target forest_state has undefined behaviour on the number of
    leaves 2^62+1. *)
Theorem C63_fuzz_state_refuted : exists data, byte_string data /\ length data = 8%nat /\ fuzz_forest_state data = UB.
Proof. exact fuzz_state_refuted. Qed.
Print Assumptions C63_fuzz_state_refuted.

(** For up to 2^62 leaves it never fails.  Missing: more leaves, for which the claim
    is false. *)
Theorem C63_fuzz_state_partial data : le_value (take 8 data) <= 2 ^ 62 -> fuzz_forest_state data = Ok tt.
Proof. exact (fuzz_forest_state_ok data). Qed.
Print Assumptions C63_fuzz_state_partial.

(** For every input: when exactly it fails.  [n] is the number of leaves, [m] the number
    of targets.  Up to 2^63 leaves, RootPositions fails if there is a tree of one leaf or
    of 2^63 leaves, and Transform fails on any target; beyond, ProofPositions fails.  In
    all other cases the target returns. *)
Theorem C63_fuzz_state_exact data : byte_string data ->
  let n := le_value (take 8 data) in let m := le_value (take 2 (drop 8 data)) in
  let bad := (8 <= length data)%nat /\ 2 ^ 62 < n /\
    (n <= 2 ^ 63 /\ (N.odd n = true \/ n = 2 ^ 63) \/ (10 + 8 * N.to_nat m <= length data)%nat /\ (0 < m \/ 2 ^ 63 < n)) in
  (bad -> fuzz_forest_state data = UB) /\ (~ bad -> fuzz_forest_state data = Ok tt).
Proof. exact (fuzz_state_exact_lem data). Qed.
Print Assumptions C63_fuzz_state_exact.

(** 2^62+2 leaves, without and with a target. *)
Example C63_exact_example : let data := [2; 0; 0; 0; 0; 0; 0; 64; 0; 0] in byte_string data /\ le_value (take 8 data) = 2 ^ 62 + 2 /\ fuzz_forest_state data = Ok tt /\
  fuzz_forest_state [2; 0; 0; 0; 0; 0; 0; 64; 1; 0; 5; 0; 0; 0; 0; 0; 0; 0] = UB.
Proof. cbv zeta. split; [repeat constructor|]. repeat split; vm_compute; reflexivity. Qed.

Example C63_example : le_value (take 8 [7; 0; 0; 0; 0; 0; 0; 0; 2; 0; 1; 0; 0; 0; 0; 0; 0; 0; 1; 0; 0; 0; 0; 0; 0; 255]) = 7.
Proof. exact eq_refl. Qed.

(** C64: the fuzz target pollard never fails, for every hash function, unless a node
    over the first k of its leaves hashes to zero, or a pollard in sync with the
    forest over these leaves accepts a proof and shows a collision of the hash function. *)
Theorem C64_fuzz_pollard H data : fuzz_pollard H data = Ok tt \/
  exists k ls, k < 128 /\ ls = (λ i, i * 256 ^ 31 + 255 * 256 ^ 27) <$> nseq 0 k /\
    ((exists r i, node k r i /\ nh H (leaf_at ls) (N.to_nat r) i = zero_hash) \/
     exists f p bp ths p', synced H f p /\ holds_leaves f ls /\ P_Verify H p bp ths = Ok (true, p') /\ shows_collision H p' ls).
Proof. exact (fuzz_pollard_lem H data). Qed.
Print Assumptions C64_fuzz_pollard.

(** Five leaves, of which 0 and 2 are removed, with the right proof and with the
    spoilt one; with constant hash functions the spoilt proof is accepted. *)
Example C64_example : fuzz_pollard ex_H [5; 1; 0; 1; 0; 0; 1; 0; 1; 0; 0; 1] = Ok tt /\ fuzz_pollard ex_H [5; 0; 0; 0; 0; 0; 1; 0; 1; 0; 0; 0] = Ok tt /\
  fuzz_pollard (λ _ _, 0) [5; 0; 0; 0; 0; 0; 1; 0; 0; 0; 0; 0] = Abort /\ fuzz_pollard (λ _ _, 5) [5; 0; 0; 0; 0; 0; 1; 0; 0; 0; 0; 0] = Abort.
Proof. exact ex_fuzz_pollard. Qed.
