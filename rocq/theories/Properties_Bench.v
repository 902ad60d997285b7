(** * Properties C86 to C89: the benchmarks (theorems) *)
From stdpp Require Import sorting.
From Verif Require Import Base StateModel CodecModel ForestModel PollardModel FuzzModel UnitModel BenchModel PosSpec MerkleSpec ForestSpec PollardSpec UnitExamples BenchFacts BenchExamples.

(** C86: random_unique permutes the elements, whatever rand() returns, if there are as
    many as are wanted; otherwise it is undefined. *)
Theorem C86_shuffle {A} rnd (l : list A) num :
  ((num <= length l)%nat -> exists l', random_unique rnd l num = Ok l' /\ l' ≡ₚ l) /\
  ((length l < num)%nat -> random_unique rnd l num = UB).
Proof. exact (conj (random_unique_ok rnd l num) (random_unique_ub rnd l num)). Qed.
Print Assumptions C86_shuffle.

(** Every selection, in every order, comes about for some values of rand() up to the
    number of elements. *)
Theorem C86_shuffle_any {A} (l s rest : list A) : s ++ rest ≡ₚ l ->
  exists rnd l', (forall k, rnd k <= size l) /\ random_unique rnd l (length s) = Ok l' /\ take (length s) l' = s.
Proof. exact (random_unique_any l s rest). Qed.
Print Assumptions C86_shuffle_any.

(** Two of four elements. *)
Example C86_example : run86 (λ _, 0) = Ok [10; 11] /\ run86 (λ k, if k =? 0 then 6 else 3) = Ok [12; 11] /\ [12; 11] ++ [10; 13] ≡ₚ [10; 11; 12; 13].
Proof. destruct run86_ok as [H1 H2]. split; [exact H1|]. split; [exact H2|]. apply (bool_decide_unpack _). by vm_compute. Qed.

(** C87 is false: the benchmark VerifyElementsPollard measures the rejection of a proof. *)
Theorem C87_verify_bench_refuted : exists H rnd p, VerifyElementsPollard H rnd 4 2 = Ok ([false; false], p).
Proof. exact (ex_intro _ H85 (ex_intro _ pick87 (run87_inv pick87 _ (proj2 run87_ok)))). Qed.
Print Assumptions C87_verify_bench_refuted.

(** It measures accepted proofs exactly if the selected leaves come in the order of their
    numbers.  Otherwise every run is a rejection, unless the pollard accepts the hashes in
    the wrong order and then shows a collision. *)
Theorem C87_verify_bench_exact H rnd num runs : 2 * N.of_nat num < 2 ^ 31 -> exists l, random_unique rnd (nseq 0 (2 * N.of_nat num)) num = Ok l /\
  let sel := take num l in
  (StronglySorted N.lt sel -> exists p, VerifyElementsPollard H rnd num runs = Ok (repeat true runs, p)) /\
  (~ StronglySorted N.lt sel -> (exists p, VerifyElementsPollard H rnd num runs = Ok (repeat false runs, p)) \/
    exists f p bp p' ls, synced H f p /\ holds_leaves f ls /\ F_Prove f (SetHash <$> sel) = Ok (Some bp) /\ P_Verify H p bp (SetHash <$> sel) = Ok (true, p') /\ shows_collision H p' ls).
Proof. exact (bench_lem H rnd num runs). Qed.
Print Assumptions C87_verify_bench_exact.

(** Both cases: four of eight leaves. *)
Example C87_example : (exists p, VerifyElementsPollard H85 (λ _, 0) 4 2 = Ok ([true; true], p)) /\ exists p, VerifyElementsPollard H85 pick87 4 2 = Ok ([false; false], p).
Proof. split; [exact (run87_inv _ _ (proj1 run87_ok))|exact (run87_inv _ _ (proj2 run87_ok))]. Qed.

(** C88: the benchmarks of the forest measure what they are meant to, for every selection
    and every hash function: Prove succeeds, Verify accepts, and the deletion succeeds and
    leaves the leaves that were not selected. *)
Theorem C88_forest_bench H rnd num : 2 * N.of_nat num < 2 ^ 31 -> exists l, random_unique rnd (nseq 0 (2 * N.of_nat num)) num = Ok l /\
  let sel := take num l in
  (exists bp, ProveElementsForest H rnd num = Ok (Some bp) /\ m_targets bp = sel) /\ VerifyElementsForest H rnd num = Ok true /\
  exists f ls, RemoveElementsForest H rnd num = Ok (true, f) /\ holds_leaves f ls /\ ls ≡ₚ SetHash <$> drop num l.
Proof. exact (forest_lem H rnd num). Qed.
Print Assumptions C88_forest_bench.

(** The leaves 5, 1, 2 and 3 of eight, in this order; four are left. *)
Example C88_example : 2 * N.of_nat 4 < 2 ^ 31 /\ run88 pick87 = Ok ([5; 1; 2; 3], true, true, 4).
Proof. split; [exact eq_refl|exact run88_ok]. Qed.

(** C89: the benchmarks without selection do what they are meant to: the leaves are added,
    by Add as by Modify, and the restored pollard is in sync with the forest. *)
Theorem C89_add_bench H n : n < 2 ^ 31 -> exists f p q, AddElements H n false = Ok f /\ AddElements H n true = Ok f /\ holds_leaves f (SetHash <$> nseq 0 n) /\
  AddElementsPollard H n = Ok (true, p) /\ synced H f p /\ RestorePollard H n = Ok q /\ synced H f q.
Proof. exact (add_lem H n). Qed.
Print Assumptions C89_add_bench.

(** The assertion of RestoreFromDiskForest never fails, and opening and closing the forest
    any number of times leaves the file as one Commit of the forest writes it. *)
Theorem C89_disk_bench H n runs : (forall a b, H a b < 256 ^ 32) -> n < 2 ^ 31 ->
  exists f file, AddElements H n true = Ok f /\ F_Commit f [] = Ok file /\ RestoreFromDiskForest H n runs = Ok file.
Proof. exact (disk_lem H n runs). Qed.
Print Assumptions C89_disk_bench.

(** Five leaves; the file holds their number and eight hashes. *)
Example C89_example : (forall a b, H89 a b < 256 ^ 32) /\ run89 = Ok (5, true, 5, 5, 8 + 32 * (5 + 2 + 1)).
Proof. split; [exact H89_fits|exact run89_ok]. Qed.
