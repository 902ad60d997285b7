(** * Properties of the file: C11, C67 to C69 (theorems) *)
From Verif Require Import Base StateModel CodecModel ForestModel PosSpec MerkleSpec CodecSpec ForestSpec FileSpec ForestExamples DiskFacts FileFacts.

(** C67: the file depends only on the leaves: the number of leaves, then the Merkle
    hashes of all nodes, row by row.  Old bytes beyond that stay. *)
Theorem C67_layout H f us ls old : reachable H f us -> holds_leaves f ls ->
  F_Commit f old = Ok (merkle_file H ls ++ drop (length (merkle_file H ls)) old).
Proof. exact (layout_lem H f us ls old). Qed.
Print Assumptions C67_layout.

Theorem C67_length H ls : size (merkle_file H ls) = file_length (size ls).
Proof. exact (file_format_size (size ls) (nh H (leaf_at ls))). Qed.
Print Assumptions C67_length.

Example C67_example : (exists f us, reachable ex_H f us /\ holds_leaves f ex_ls) /\ file_length 7 = 8 + 32 * 11 /\
  take 40 (merkle_file ex_H ex_ls) = [0; 0; 0; 0; 0; 0; 0; 7] ++ replicate 31 0 ++ [10].
Proof.
  split; [|split; vm_compute; reflexivity]. destruct ex_history as (f & u0 & _ & _ & Hr & Hh & _). by exists f, [u0].
Qed.

(** C68 is false: Restore compares no hashes.  A committed file with one byte changed
    is opened as a forest whose root is not that of its leaves. *)
Theorem C68_damaged_refuted : exists H f us bytes k b g ls, reachable H f us /\ F_Commit f [] = Ok bytes /\ F_Restore (<[k := b]> bytes) = Ok g /\
  holds_leaves f ls /\ holds_leaves g ls /\ ~ roots_of H ls (F_Roots g).
Proof. exact damaged_lem. Qed.
Print Assumptions C68_damaged_refuted.

(** What holds: a file that is too short for the number of leaves in its header, or
    for the header, is not opened, but by reading uninitialised memory.  Any other file
    is opened, and the nodes and roots of the forest are the hashes in the file.
    Missing: that the hashes fit.  Headers above 2^62 are never opened, see
    [C68_open_exact]. *)
Theorem C68_open_partial n c : byte_string c -> n <= 2 ^ 62 ->
  (8 + size c < file_length n -> F_Restore (be 8 n ++ c) = UB) /\
  (file_length n <= 8 + size c -> exists g rest f, be 8 n ++ c = file_format n g ++ rest /\ F_Restore (be 8 n ++ c) = Ok f /\ f_n f = n /\
     (forall R r i, is_height n R -> node n r i -> F_Read f (enc R r i) = Ok (g (N.to_nat r) i)) /\
     (forall ts, is_forest n ts -> F_Roots f = (λ t : N * N, g (N.to_nat t.1) t.2) <$> ts)).
Proof. exact (open_lem n c). Qed.
Print Assumptions C68_open_partial.

Theorem C68_no_header_partial bytes : size bytes < 8 -> F_Restore bytes = UB.
Proof. exact (open_tiny bytes). Qed.
Print Assumptions C68_no_header_partial.

(** Which files are opened: those with a header of at most 2^62 that are long enough.
    Every other file makes the constructor undefined: it reads uninitialised memory
    or shifts by the width of the type. *)
Theorem C68_open_exact bytes : byte_string bytes ->
  let fits := exists n c, bytes = be 8 n ++ c /\ n <= 2 ^ 62 /\ file_length n <= size bytes in
  (fits <-> exists f, F_Restore bytes = Ok f) /\ (~ fits <-> F_Restore bytes = UB).
Proof. exact (open_exact_lem bytes). Qed.
Print Assumptions C68_open_exact.

(** A file of two leaves: 40 bytes are too few, 104 suffice. *)
Example C68_example : let c := replicate 32 0 in byte_string c /\ 8 + size c < file_length 2 /\
  let c := replicate 96 7 in byte_string c /\ file_length 2 <= 8 + size c.
Proof. repeat split; try (vm_compute; congruence); repeat constructor. Qed.

Example C68_big_example : let bytes := be 8 (2 ^ 63) ++ replicate 96 7 in byte_string bytes /\ F_Restore bytes = UB.
Proof. split; [repeat constructor|vm_compute; reflexivity]. Qed.

(** C69: opening a file and closing it, which commits, leaves it as it was, whatever
    it held. *)
Theorem C69_open_close bytes f : byte_string bytes -> F_Restore bytes = Ok f -> f_n f < 2 ^ 31 -> F_Commit f bytes = Ok bytes.
Proof. exact (open_close_lem bytes f). Qed.
Print Assumptions C69_open_close.

Example C69_example : let bytes := be 8 2 ++ replicate 96 7 ++ [1; 2; 3] in byte_string bytes /\ exists f, F_Restore bytes = Ok f /\ f_n f = 2.
Proof. split; [repeat constructor|]. eexists. split; vm_compute; reflexivity. Qed.

(** C11, what else holds: a crash after the last byte leaves the new forest. *)
Theorem C11_crash_end_partial H f' us' old bs k : reachable H f' us' -> (forall a b, H a b < 256 ^ 32) ->
  (forall i h, i < f_n f' -> F_GetLeaf f' i = Ok h -> h < 256 ^ 32) -> F_commit_blocks f' = Ok bs -> (length (concat bs) <= k)%nat ->
  exists g, F_Restore (overwrite old (take k (concat bs))) = Ok g /\ same_forest f' g.
Proof. exact (crash_end_lem H f' us' old bs k). Qed.
Print Assumptions C11_crash_end_partial.

Example C11_end_example : exists f us bs, reachable ex_H f us /\ (forall a b, ex_H a b < 256 ^ 32) /\
  (forall i h, i < f_n f -> F_GetLeaf f i = Ok h -> h < 256 ^ 32) /\ F_commit_blocks f = Ok bs.
Proof. exact ex_blocks. Qed.
