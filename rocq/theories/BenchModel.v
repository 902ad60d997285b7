(** * BenchModel: the benchmarks (model)

    src/bench/util/leaves.h, src/bench/pollard.cpp and src/bench/ram_forest.cpp.  SetHash and CreateTestLeaves are copies of those of the unit
    tests ([test_leaves]).  The framework that repeats and times the programs is not
    modelled, except that Verify of a pollard, which changes it, is repeated.  [num] is the
    value taken from complexityN(), or the default 32.  The forests are not destroyed here. *)
From Verif Require Import Base StateModel CodecModel ForestModel PollardModel FuzzModel UnitModel.

Section Unique.
(** [rnd k] is the value of the [k]-th call of rand(). *)
Context (rnd : N -> N).

(** leaves.h:35-47 random_unique: the loop from the iterator [b] on, with [left] elements
    from there to the end.  The function makes one call of rand() in each round, so that
    [b] also counts the calls.  [rand() % left] with [left] zero is undefined. *)
Fixpoint unique_loop {A} (b left : N) (num : nat) (l : list A) : res (list A) :=
  match num with
  | O => Ok l
  | S num' =>
      if left =? 0 then UB else
      let r := b + rnd b mod left in
      match l !! N.to_nat b, l !! N.to_nat r with
      | Some x, Some y => unique_loop (b + 1) (left - 1) num' (<[N.to_nat b := y]> (<[N.to_nat r := x]> l))
      | _, _ => UB
      end
  end.
Definition random_unique {A} (l : list A) (num : nat) : res (list A) := unique_loop 0 (size l) num l.
End Unique.

Section Bench.
Context (H : hash -> hash -> hash).
Context (rnd : N -> N).

(** pollard.cpp:50-52: the benchmark calls Verify again and again; the results. *)
Fixpoint verify_runs (runs : nat) (p : pollard) (bp : batch_proof) (hs : list hash) : res (list bool * pollard) :=
  match runs with
  | O => Ok ([], p)
  | S runs' =>
      let* v := P_Verify H p bp hs in
      let* rest := verify_runs runs' v.2 bp hs in
      Ok (v.1 :: rest.1, rest.2)
  end.

(** pollard.cpp:26-53 VerifyElementsPollard with [num] leaves to verify.  The results of
    Modify and Prove are not looked at: the proof stays empty if Prove fails. *)
Definition VerifyElementsPollard (num runs : nat) : res (list bool * pollard) :=
  let num_leaves := 2 * N.of_nat num in
  if int_max <? num_leaves then UB else
  let leaves := test_leaves 0 num_leaves in
  let* mf := F_ModifyUndo H (RamForest_new 0) leaves [] in
  let* mp := P_Modify H (Pollard_new 0) leaves [] in
  let* shuffled := random_unique rnd leaves num in
  let leaf_hashes := (take num shuffled).*1 in
  let* pr := F_Prove mf.2 leaf_hashes in
  verify_runs runs mp.2 (default BatchProofNull pr) leaf_hashes.

(** ram_forest.cpp:64-87 ProveElementsForest: the result of Prove. *)
Definition ProveElementsForest (num : nat) : res (option batch_proof) :=
  let num_leaves := 2 * N.of_nat num in
  if int_max <? num_leaves then UB else
  let leaves := test_leaves 0 num_leaves in
  let* mf := F_ModifyUndo H (RamForest_new 0) leaves [] in
  let* shuffled := random_unique rnd leaves num in
  F_Prove mf.2 (take num shuffled).*1.

(** ram_forest.cpp:90-113 VerifyElementsForest: the result of Verify. *)
Definition VerifyElementsForest (num : nat) : res bool :=
  let num_leaves := 2 * N.of_nat num in
  if int_max <? num_leaves then UB else
  let leaves := test_leaves 0 num_leaves in
  let* mf := F_ModifyUndo H (RamForest_new 0) leaves [] in
  let* shuffled := random_unique rnd leaves num in
  let leaf_hashes := (take num shuffled).*1 in
  let* pr := F_Prove mf.2 leaf_hashes in
  Ok (F_Verify mf.2 (default BatchProofNull pr) leaf_hashes).

(** ram_forest.cpp:117-151 RemoveElementsForest: the result of Modify and the forest. *)
Definition RemoveElementsForest (num : nat) : res (bool * forest) :=
  let num_leaves := 2 * N.of_nat num in
  if int_max <? num_leaves then UB else
  let leaves := test_leaves 0 num_leaves in
  let* shuffled := random_unique rnd leaves num in
  let* full := F_Add H (RamForest_new 0) leaves in
  let* pr := F_Prove full (take num shuffled).*1 in
  let* full := F_Add H (RamForest_new 0) leaves in
  let* m := F_ModifyUndo H full [] (m_sorted_targets (default BatchProofNull pr)) in
  Ok (m.1.1, m.2).

(** pollard.cpp:10-22 AddElementsPollard: one run. *)
Definition AddElementsPollard (num : N) : res (bool * pollard) := P_Modify H (Pollard_new 0) (test_leaves 0 num) [].

(** pollard.cpp:56-76 RestorePollard: one run. *)
Definition RestorePollard (num : N) : res pollard :=
  let* mp := P_Modify H (Pollard_new 0) (test_leaves 0 num) [] in
  let* roots := P_Roots mp.2 in
  Pollard_restore roots num.

(** ram_forest.cpp:9-29 AddElements: one run. *)
Definition AddElements (num : N) (with_modify : bool) : res forest :=
  let leaves := test_leaves 0 num in
  if with_modify then let* mf := F_ModifyUndo H (RamForest_new 0) leaves [] in Ok mf.2
  else F_Add H (RamForest_new 0) leaves.

(** ram_forest.cpp:57-60: the forest is opened, looked at and destroyed again and again; the
    file afterwards. *)
Fixpoint disk_runs (num : N) (runs : nat) (file : list N) : res (list N) :=
  match runs with
  | O => Ok file
  | S runs' =>
      let* full := F_Restore file in
      let* _ := assert_ (f_n full =? num) in
      let* file' := F_Commit full file in
      disk_runs num runs' file'
  end.

(** ram_forest.cpp:44-61 RestoreFromDiskForest.  The file does not exist at the start
    (it is removed in line 49). *)
Definition RestoreFromDiskForest (num : N) (runs : nat) : res (list N) :=
  let* new := F_OpenNew in
  let* mf := F_ModifyUndo H new.1 (test_leaves 0 num) [] in
  let* file := F_Commit mf.2 new.2 in
  disk_runs num runs file.
End Bench.
