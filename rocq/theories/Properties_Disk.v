(** * Properties of the forest on disk: C11, C12, and of RamForest::Verify: C39 *)
From Verif Require Import Base StateModel CodecModel ForestModel PosSpec MerkleSpec ForestSpec DiskFacts ForestExamples.

(** C11 is false: Commit overwrites the file in place, and after a prefix of its
    bytes the file holds a forest that was never committed. *)
Theorem C11_crash_refuted : exists H f us f' us' old bs k g, reachable H f us /\ reachable H f' us' /\ F_Commit f [] = Ok old /\
  F_commit_blocks f' = Ok bs /\ F_Restore (overwrite old (take k (concat bs))) = Ok g /\ ~ same_forest f g /\ ~ same_forest f' g.
Proof. exact C11_refuted_lem. Qed.
Print Assumptions C11_crash_refuted.

(** C11, what holds: before the first byte, and before the end of the header if
    the number of leaves is unchanged, the old file is intact.  Missing: every
    later crash point. *)
Theorem C11_crash_partial f f' old0 old bs k : F_Commit f old0 = Ok old -> F_commit_blocks f' = Ok bs ->
  (k = 0%nat \/ (k <= 8)%nat /\ f_n f' = f_n f) -> overwrite old (take k (concat bs)) = old.
Proof. exact (C11_partial_lem f f' old0 old bs k). Qed.
Print Assumptions C11_crash_partial.

Example C11_example : run11 39 = Ok ([10], [267], [266]) /\ run11 0 = Ok ([10], [267], [10]).
Proof. split; vm_compute; reflexivity. Qed.

(** C12 is false: Restore allocates rows for the current number of leaves only,
    and Undo to a taller forest then indexes [m_data] out of range. *)
Theorem C12_undo_after_reopen_refuted : exists H f us u f' bytes g, reachable H f us /\
  F_ModifyUndo H f [] [1; 2] = Ok (true, Some u, f') /\ F_Commit f' [] = Ok bytes /\ F_Restore bytes = Ok g /\
  same_forest f' g /\ F_Undo H g u = UB.
Proof. exact C12_refuted_lem. Qed.
Print Assumptions C12_undo_after_reopen_refuted.

(** C12 holds if the modification did not make the forest lower. *)
Theorem C12_undo_after_reopen_partial H f us (adds : list leaf) ts u f' old R R' :
  reachable H f us -> f_n f + size adds < 2 ^ 31 + size ts ->
  F_ModifyUndo H f adds ts = Ok (true, Some u, f') -> (forall a b, H a b < 256 ^ 32) ->
  (forall i h, i < f_n f' -> F_GetLeaf f' i = Ok h -> h < 256 ^ 32) ->
  is_height (f_n f) R -> is_height (f_n f') R' -> R <= R' ->
  exists bytes g f'', F_Commit f' old = Ok bytes /\ F_Restore bytes = Ok g /\ F_Undo H g u = Ok (true, f'') /\ same_forest f f''.
Proof. exact (C12_partial_lem H f us adds ts u f' old R R'). Qed.
Print Assumptions C12_undo_after_reopen_partial.

Example C12_example : exists f us u f', reachable ex_H f us /\ F_ModifyUndo ex_H f ex_adds ex_ts = Ok (true, Some u, f') /\
  is_height (f_n f) 3 /\ is_height (f_n f') 3.
Proof.
  destruct ex_history as (f & u0 & u & f' & Hr & _ & Hn & _ & E & _ & _ & Hn'). exists f, [u0], u, f'. rewrite Hn, Hn'. split; [done|]. split; [done|].
  split; apply PosFacts.NumRows_height; vm_compute; reflexivity.
Qed.

(** C39 is false: RamForest::Verify accepts any proof for hashes that are in the
    forest. *)
Theorem C39_forest_verify_refuted : exists H f us h, reachable H f us /\ forall p, F_Verify f p [h] = true.
Proof. exact C39_refuted_lem. Qed.
Print Assumptions C39_forest_verify_refuted.

(** What it does check: membership of the hashes. *)
Theorem C39_forest_verify_partial H f us ls p hs : reachable H f us -> holds_leaves f ls ->
  F_Verify f p hs = true <-> forall h, h ∈ hs -> h ∈ ls.
Proof. exact (C39_partial_lem H f us ls p hs). Qed.
Print Assumptions C39_forest_verify_partial.
