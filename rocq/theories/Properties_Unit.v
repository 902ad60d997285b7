(** * Property C85: the unit test simple_blockchain (theorem) *)
From Verif Require Import Base StateModel CodecModel ForestModel PollardModel FuzzModel UnitModel PosSpec MerkleSpec ForestSpec PollardSpec UnitFacts UnitExamples.

(** C85: the test passes for every number of blocks (fewer than 2^31 leaves are made) and
    whatever the random choices are, for every hash function, unless a node over some of
    its leaves hashes to zero, or a pollard in sync with the forest over these leaves
    accepts a proof and shows a collision of the hash function. *)
Theorem C85_simple_blockchain H rnd num : (forall k a b, a <= b -> a <= rnd k a b <= b) -> 8 + 128 * N.of_nat num < 2 ^ 31 ->
  simple_blockchain H rnd num = Ok tt \/
  exists f p ls, synced H f p /\ holds_leaves f ls /\ Forall (λ h, exists i, i < 8 + 128 * N.of_nat num /\ h = SetHash i) ls /\
    ((exists r i, node (size ls) r i /\ nh H (leaf_at ls) (N.to_nat r) i = zero_hash) \/
     exists bp ths p', P_Verify H p bp ths = Ok (true, p') /\ shows_collision H p' ls).
Proof. exact (λ Hr, blockchain_lem H rnd Hr num). Qed.
Print Assumptions C85_simple_blockchain.

(** The test has 1000 blocks.  A run of two blocks, the first of which deletes leaves 3
    and 7, passes; with a hash function whose values are all equal it fails. *)
Example C85_example : 8 + 128 * N.of_nat 1000 < 2 ^ 31 /\ (forall k a b, a <= b -> a <= rnd85 k a b <= b) /\ simple_blockchain H85 rnd85 2 = Ok tt /\
  (let* m := F_ModifyUndo H85 (RamForest_new 0) (test_leaves 0 8) [] in let* s := select rnd85 7 m.2 1 0 7 [] in Ok s.2) = Ok [SetHash 3; SetHash 7] /\
  simple_blockchain (λ _ _, 5) rnd85 1 = Throw.
Proof. split; [exact eq_refl|]. split; [exact rnd85_ok|]. destruct ex_blockchain as [H1 H2]. split; [exact H1|]. split; [exact H2|exact ex_blockchain_bad]. Qed.
