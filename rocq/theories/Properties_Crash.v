(** * Properties of a crash during Commit: C11 (theorems) *)
From Verif Require Import Base StateModel CodecModel ForestModel PosSpec MerkleSpec CodecSpec ForestSpec FileSpec ForestExamples DiskFacts CrashFacts.

(** C11 is false (Properties_Disk).  What a crash does leave, for every crash point
    after the header and whatever the file held before: if the file is too short for
    the new number of leaves it cannot be opened.  Otherwise it opens as a forest with
    that number of leaves, in which the bytes written before the crash are those of
    the new forest and all others are what was there.  Each hash is described by the
    number of its bytes that were written.
    Missing: that the forest is the old or the new one. *)
Theorem C11_crash_any_partial H f us old bs k : reachable H f us -> byte_string old -> F_commit_blocks f = Ok bs -> (8 <= k <= length (concat bs))%nat ->
  let file := overwrite old (take k (concat bs)) in
  (N.max (size old) (N.of_nat k) < file_length (f_n f) -> F_Restore file = UB) /\
  (file_length (f_n f) <= N.max (size old) (N.of_nat k) -> exists g, F_Restore file = Ok g /\ f_n g = f_n f /\
    forall R r i, is_height (f_n f) R -> node (f_n f) r i -> exists h h', F_Read f (enc R r i) = Ok h /\ F_Read g (enc R r i) = Ok h' /\
      let a := file_offset (f_n f) r i in
      be 32 h' = take (k - N.to_nat a) (be 32 h) ++ drop (k - N.to_nat a) (bytes_at old a 32)).
Proof. exact (crash_any_lem H f us old bs k). Qed.
Print Assumptions C11_crash_any_partial.

(** If the number of leaves is unchanged, the file always opens, and every hash is
    new before the crash point, old after it; at most the one at the crash point is
    torn.  Missing: as above. *)
Theorem C11_crash_same_partial H f us f' us' old0 old bs k : reachable H f us -> reachable H f' us' -> f_n f' = f_n f -> byte_string old0 ->
  F_Commit f old0 = Ok old -> F_commit_blocks f' = Ok bs -> (8 <= k <= length (concat bs))%nat ->
  exists g, F_Restore (overwrite old (take k (concat bs))) = Ok g /\ f_n g = f_n f /\
    forall R r i, is_height (f_n f) R -> node (f_n f) r i -> exists h h' hg, F_Read f (enc R r i) = Ok h /\ F_Read f' (enc R r i) = Ok h' /\
      F_Read g (enc R r i) = Ok hg /\
      let m := (k - N.to_nat (file_offset (f_n f) r i))%nat in be 32 hg = take m (be 32 h') ++ drop m (be 32 h).
Proof. exact (crash_same_lem H f us f' us' old0 old bs k). Qed.
Print Assumptions C11_crash_same_partial.

(** A crash within the header leaves a number of leaves that mixes the bytes of both,
    and the old hashes, read at the offsets of that number.  Missing: as above. *)
Theorem C11_crash_header_partial H f us f' us' old0 old bs k : reachable H f us -> reachable H f' us' -> byte_string old0 ->
  F_Commit f old0 = Ok old -> F_commit_blocks f' = Ok bs -> (k <= 8)%nat ->
  let file := overwrite old (take k (concat bs)) in
  exists n, be 8 n = take k (be 8 (f_n f')) ++ drop k (be 8 (f_n f)) /\
    (size old < file_length n -> F_Restore file = UB) /\
    (file_length n <= size old -> exists g, F_Restore file = Ok g /\ f_n g = n /\
      forall R r i, is_height n R -> node n r i -> exists h, F_Read g (enc R r i) = Ok h /\ be 32 h = bytes_at old (file_offset n r i) 32).
Proof. exact (crash_header_lem H f us f' us' old0 old bs k). Qed.
Print Assumptions C11_crash_header_partial.

(** Two forests of three leaves; the root over the first two starts at byte 104. *)
Example C11_crash_example : (exists f us f' us' old bs, reachable ex_H f us /\ reachable ex_H f' us' /\ f_n f = 3 /\ f_n f' = f_n f /\ byte_string [] /\
  F_Commit f [] = Ok old /\ F_commit_blocks f' = Ok bs /\ length (concat bs) = 136%nat /\ size old = 136) /\ file_offset 3 1 0 = 104 /\ file_length 3 = 136.
Proof. split; [exact ex_crash|]. split; vm_compute; reflexivity. Qed.
