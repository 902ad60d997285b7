(** * Property C93: only the leaves of a forest matter (theorems) *)
From Verif Require Import Base StateModel CodecModel ForestModel PosSpec MerkleSpec ForestSpec ForestExamples TwinFacts TwinExamples.

(** C93: two forests that hold the same leaves, whatever their histories, give the same
    results: of Modify with the same undo batch, of Prove and of Verify.  The forests
    afterwards agree again. *)
Theorem C93_same_leaves H f us g vs ls (adds : list leaf) ts : reachable H f us -> reachable H g vs -> holds_leaves f ls -> holds_leaves g ls ->
  size ls + size adds < 2 ^ 31 + size ts ->
  (forall b f', F_Modify H f adds ts = Ok (b, f') -> exists g', F_Modify H g adds ts = Ok (b, g') /\ same_forest f' g') /\
  (forall b u f', F_ModifyUndo H f adds ts = Ok (b, u, f') -> exists g', F_ModifyUndo H g adds ts = Ok (b, u, g') /\ same_forest f' g') /\
  (F_Modify H f adds ts = Abort -> F_Modify H g adds ts = Abort) /\ (F_ModifyUndo H f adds ts = Abort -> F_ModifyUndo H g adds ts = Abort) /\
  (forall hs, F_Prove f hs = F_Prove g hs) /\ forall p hs, F_Verify f p hs = F_Verify g p hs.
Proof. exact (twin_lem H f us g vs ls adds ts). Qed.
Print Assumptions C93_same_leaves.

(** A forest with seven leaves, and another that has held nine. *)
Example C93_example : exists f g, reachable ex_H f [] /\ reachable ex_H g [] /\ holds_leaves f ex_ls /\ holds_leaves g ex_ls /\ f <> g /\
  size ex_ls + size ex_adds < 2 ^ 31 + size ex_ts.
Proof. exact ex93. Qed.

(** After some modifications and their undoing, any other modifications go as if the first
    had never been made, with the same undo batches. *)
Theorem C93_reorganisation H f us vs f1 f2 ws f' : reachable H f us -> modifies H f vs f1 -> undo_all H f1 vs = Ok (Some f2) -> modifies H f ws f' ->
  exists f2', modifies H f2 ws f2' /\ same_forest f' f2'.
Proof. exact (reorg_lem H f us vs f1 f2 ws f'). Qed.
Print Assumptions C93_reorganisation.

(** Two modifications of the empty forest; the others may be the same again. *)
Example C93_reorganisation_example : exists f1 vs f2, reachable ex_H (RamForest_new 0) [] /\ modifies ex_H (RamForest_new 0) vs f1 /\
  undo_all ex_H f1 vs = Ok (Some f2) /\ vs <> [].
Proof. exact ex93_reorg. Qed.

(** An undo batch handed out by one forest can be used with another that holds the same
    leaves exactly if that one has allocated enough rows, with the same result. *)
Theorem C93_undo_batch H f us (adds : list leaf) ts u f1 g vs ls : reachable H f us -> f_n f + size adds < 2 ^ 31 + size ts ->
  F_ModifyUndo H f adds ts = Ok (true, Some u, f1) -> reachable H g vs -> holds_leaves f1 ls -> holds_leaves g ls ->
  ((exists g', F_Undo H g u = Ok (true, g')) <-> forall R, is_height (f_n f) R -> R < size (f_data g)) /\
  forall g', F_Undo H g u = Ok (true, g') -> same_forest f g'.
Proof. exact (undo_twin_lem H f us adds ts u f1 g vs ls). Qed.
Print Assumptions C93_undo_batch.

(** The same modification of two forests with the same leaves. *)
Example C93_undo_example : exists f g u f1 g1 ls, reachable ex_H f [] /\ reachable ex_H g1 [u] /\ f <> g /\
  f_n f + size ex_adds < 2 ^ 31 + size ex_ts /\ F_ModifyUndo ex_H f ex_adds ex_ts = Ok (true, Some u, f1) /\
  F_ModifyUndo ex_H g ex_adds ex_ts = Ok (true, Some u, g1) /\ holds_leaves f1 ls /\ holds_leaves g1 ls.
Proof. exact ex93_undo. Qed.
