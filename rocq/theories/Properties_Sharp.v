(** * What exactly holds of refuted properties: C12, C15, C16, C18, C49, C65 (theorems) *)
From Verif Require Import Base StateModel CodecModel ByteModel ForestModel PosSpec CodecSpec ForestSpec ForestExamples CodecMore ByteFacts DiskMore MerkleSpec UndoExact.

(** C12: an undo batch can be used after reopening exactly if twice the number of
    leaves left reaches the slots of the forest before the modification. *)
Theorem C12_undo_after_reopen_exact H f us (adds : list leaf) ts u f' old R : reachable H f us -> f_n f + size adds < 2 ^ 31 + size ts ->
  F_ModifyUndo H f adds ts = Ok (true, Some u, f') -> (forall a b, H a b < 256 ^ 32) ->
  (forall i h, i < f_n f' -> F_GetLeaf f' i = Ok h -> h < 256 ^ 32) -> is_height (f_n f) R ->
  exists bytes g, F_Commit f' old = Ok bytes /\ F_Restore bytes = Ok g /\
    (R = 0 \/ 2 ^ R <= 2 * f_n f' -> exists f'', F_Undo H g u = Ok (true, f'') /\ same_forest f f'') /\
    ((exists f'', F_Undo H g u = Ok (true, f'')) -> R = 0 \/ 2 ^ R <= 2 * f_n f').
Proof. exact (reopen_exact_lem H f us adds ts u f' old R). Qed.
Print Assumptions C12_undo_after_reopen_exact.

Example C12_exact_example : exists f us u f', reachable ex_H f us /\ f_n f + size ex_adds < 2 ^ 31 + size ex_ts /\
  F_ModifyUndo ex_H f ex_adds ex_ts = Ok (true, Some u, f') /\ (forall a b, ex_H a b < 256 ^ 32) /\
  (forall i h, i < f_n f' -> F_GetLeaf f' i = Ok h -> h < 256 ^ 32) /\ is_height (f_n f) 3 /\ 2 ^ 3 <= 2 * f_n f'.
Proof. exact ex_reopen. Qed.

(** C15: two proofs have the same encoding exactly if their hashes agree and their
    targets agree modulo 2^32. *)
Theorem C15_same_encoding p q bytes : fits 32 (m_proof p) -> fits 32 (m_proof q) -> bp_Serialize p = Ok bytes ->
  bp_Serialize q = Ok bytes <-> (λ t, t mod 2 ^ 32) <$> m_targets p = (λ t, t mod 2 ^ 32) <$> m_targets q /\ m_proof p = m_proof q.
Proof. exact (same_encoding_lem p q bytes). Qed.
Print Assumptions C15_same_encoding.

Example C15_exact_example : let p := BatchProof [5; 2 ^ 32 + 3] [1] in let q := BatchProof [2 ^ 40 + 5; 3] [1] in
  fits 32 (m_proof p) /\ fits 32 (m_proof q) /\ bp_Serialize p = bp_Serialize q /\ exists bytes, bp_Serialize p = Ok bytes.
Proof. split; [repeat constructor|]. split; [repeat constructor|]. split; [vm_compute; reflexivity|]. eexists. vm_compute. reflexivity. Qed.

(** C16: an accepted encoding adds its targets to the sorted targets the object had;
    so the sorted targets are right exactly if there were none. *)
Theorem C16_unserialize_exact p bytes p' : bp_Unserialize p bytes = Ok (true, p') ->
  m_sorted_targets p' = sortN (m_sorted_targets p ++ m_targets p') /\ (m_sorted_targets p' = sortN (m_targets p') <-> m_sorted_targets p = []).
Proof. exact (reused_lem p bytes p'). Qed.
Print Assumptions C16_unserialize_exact.

Example C16_exact_example : bp_Unserialize (BatchProof [9] []) [0;0;0;1; 0;0;0;0; 0;0;0;4] = Ok (true, BatchProofRaw [4] [4; 9] []).
Proof. vm_compute. reflexivity. Qed.

(** C18: for every header, decoding an undo batch succeeds if the length is right,
    reads past the end if it is right modulo 2^32 only, and returns false otherwise. *)
Theorem C18_undobatch_exact u adds k c : adds < 2 ^ 32 -> k < 2 ^ 32 -> byte_string c ->
  let bytes := be 4 adds ++ be 4 k ++ c in size bytes < 2 ^ 31 ->
  (size bytes = 8 + 36 * k -> exists u', ub_Unserialize u bytes = Ok (true, u') /\ ub_Serialize u' = Ok bytes) /\
  (size bytes = (8 + 36 * k) mod 2 ^ 32 -> size bytes <> 8 + 36 * k -> ub_Unserialize u bytes = UB) /\
  (size bytes <> (8 + 36 * k) mod 2 ^ 32 ->
     ub_Unserialize u bytes = Ok (false, UndoBatch adds (m_deleted_positions u) (m_deleted_hashes u))).
Proof. exact (ub_exact_lem u adds k c). Qed.
Print Assumptions C18_undobatch_exact.

(** 2^30 deletions announced in 8 bytes. *)
Example C18_exact_example : let bytes := be 4 7 ++ be 4 (2 ^ 30) ++ [] in
  size bytes < 2 ^ 31 /\ size bytes = (8 + 36 * 2 ^ 30) mod 2 ^ 32 /\ size bytes <> 8 + 36 * 2 ^ 30.
Proof. split; [vm_compute; reflexivity|]. split; [vm_compute; reflexivity|]. vm_compute. congruence. Qed.

(** C65: the condition on the machine is exact. *)
Theorem C65_byte_order_exact h : (forall x, mWriteBE32 h x = be 4 x) <-> h_decl h = true \/ h_words_big h = h_big h.
Proof. exact (byte_order_exact_lem h). Qed.
Print Assumptions C65_byte_order_exact.

Example C65_exact_example : mWriteBE32 (Host false false false) 258 = be 4 258 /\ mWriteBE32 (Host true false false) 258 = [2; 1; 0; 0].
Proof. split; vm_compute; reflexivity. Qed.

(** C49: for a batch with valid positions, one for each hash, Undo returns false
    exactly if one of the hashes is there already, and true exactly if none is and
    there are rows enough for the forest to be restored; that forest then holds what
    was left and the hashes, and deleting the positions leads back.  In all other
    cases it does not return. *)
Theorem C49_undo_foreign_exact H f us ls k ts hs : reachable H f us -> holds_leaves f ls -> k <= size ls -> size hs = size ts ->
  let ls1 := take (N.to_nat (size ls - k)) ls in let n0 := size ls1 + size ts in
  n0 < 2 ^ 31 -> valid_targets n0 ts ->
  ((exists f', F_Undo H f (UndoBatch k ts hs) = Ok (false, f')) <-> ~ NoDup (ls1 ++ hs)) /\
  ((exists f', F_Undo H f (UndoBatch k ts hs) = Ok (true, f')) <-> NoDup (ls1 ++ hs) /\ forall R, is_height n0 R -> R < size (f_data f)) /\
  forall f', F_Undo H f (UndoBatch k ts hs) = Ok (true, f') ->
    exists ls0, holds_leaves f' ls0 /\ roots_of H ls0 (F_Roots f') /\ ls0 ≡ₚ ls1 ++ hs /\ spec_remove ls0 ts = ls1.
Proof. exact (undo_exact_lem H f us ls k ts hs). Qed.
Print Assumptions C49_undo_foreign_exact.

(** One leaf is left of four, in three rows: enough for 3 leaves, not for 5. *)
Example C49_exact_example : exists f us, reachable ex_H f us /\ holds_leaves f [11] /\ size (f_data f) = 3 /\ is_height 3 2 /\ is_height 5 3 /\
  valid_targets 3 [0; 2] /\ NoDup [11; 20; 21] /\ valid_targets 5 [0; 1; 2; 4] /\ NoDup [11; 20; 21; 22; 23].
Proof. exact ex_undo_rows. Qed.
