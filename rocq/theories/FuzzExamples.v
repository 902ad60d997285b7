(** * FuzzExamples: the fuzz targets, property lemmas and concrete runs (proofs) *)
From Verif Require Import Base StateModel CodecModel ForestModel PollardModel FuzzModel PosSpec MerkleSpec CodecSpec ForestSpec PollardSpec ForestFacts ForestExamples TotalFacts FuzzFacts.

Lemma any_targets_ok n ts : n <= 2 ^ 62 -> exists roots pc swaps leaf_swaps ok,
  RootPositions n = Ok roots /\ ProofPositions n ts = Ok pc /\ Transform n ts = Ok swaps /\ UndoTransform n ts = Ok leaf_swaps /\ CheckTargetsSanity n ts = Ok ok.
Proof.
  intros Hn. destruct (RootPositions_total n Hn n) as (a & Ha), (ProofPositions_is_ok n Hn ts) as (b & Hb), (Transform_is_ok n Hn ts) as (c & Hc),
    (UndoTransform_is_ok n Hn ts) as (d & Hd), (CheckTargetsSanity_is_ok n ts) as (e & He). exists a, b, c, d, e. done.
Qed.
Lemma ex_any_targets : 7 <= 2 ^ 62 /\ CheckTargetsSanity 7 [5; 5; 2 ^ 64 - 1; 0] = Ok false /\
  exists swaps, Transform 7 [5; 5; 2 ^ 64 - 1; 0] = Ok swaps /\ length swaps = 3%nat.
Proof. split; [done|]. split; [vm_compute; reflexivity|]. eexists. split; vm_compute; reflexivity. Qed.
Lemma ex_fuzz_batchproof : let data := [1; 1] ++ be 4 1 ++ be 4 1 ++ be 4 7 ++ be 32 9 in byte_string data /\
  exists q, bp_Unserialize BatchProofNull (drop 2 data) = Ok (true, q).
Proof. split; [repeat constructor|]. eexists. vm_compute. reflexivity. Qed.
Lemma fuzz_state_refuted : exists data, byte_string data /\ length data = 8%nat /\ fuzz_forest_state data = UB.
Proof. exists [1; 0; 0; 0; 0; 0; 0; 64]. split; [repeat constructor|]. split; [done|]. vm_compute. reflexivity. Qed.
Lemma fuzz_pollard_lem H data : fuzz_pollard H data = Ok tt \/
  exists k ls, k < 128 /\ ls = (λ i, i * 256 ^ 31 + 255 * 256 ^ 27) <$> nseq 0 k /\
    ((exists r i, node k r i /\ nh H (leaf_at ls) (N.to_nat r) i = zero_hash) \/
     exists f p bp ths p', synced H f p /\ holds_leaves f ls /\ P_Verify H p bp ths = Ok (true, p') /\ shows_collision H p' ls).
Proof.
  destruct (fuzz_pollard_ok H data) as [?|(k & Hk & Hx)]; [by left|right]. exists k, (fuzz_ls k). split; [done|]. split; [apply fuzz_ls_spec; lia|exact Hx].
Qed.
Lemma ex_fuzz_pollard : fuzz_pollard ex_H [5; 1; 0; 1; 0; 0; 1; 0; 1; 0; 0; 1] = Ok tt /\ fuzz_pollard ex_H [5; 0; 0; 0; 0; 0; 1; 0; 1; 0; 0; 0] = Ok tt /\
  fuzz_pollard (λ _ _, 0) [5; 0; 0; 0; 0; 0; 1; 0; 0; 0; 0; 0] = Abort /\ fuzz_pollard (λ _ _, 5) [5; 0; 0; 0; 0; 0; 1; 0; 0; 0; 0; 0] = Abort.
Proof. repeat split; vm_compute; reflexivity. Qed.
