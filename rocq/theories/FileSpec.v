(** * FileSpec: the file of a forest (specification)

    Written from the format description only. *)
From Verif Require Import Base PosSpec MerkleSpec CodecSpec.

(** The hashes [g r i] of all nodes of a forest of [n] leaves, row by row from the
    bottom, left to right.  Row [r] has [n / 2^r] of them; forests have at most 64
    rows. *)
Definition all_nodes (n : N) (g : nat -> N -> N) : list N :=
  concat ((λ r, g r <$> nseq 0 (n / 2 ^ N.of_nat r)) <$> seq 0 64).

(** The file: the number of leaves in 8 bytes, then the hashes. *)
Definition file_format (n : N) (g : nat -> N -> N) : list N := be 8 n ++ (all_nodes n g ≫= be 32).

(** The file of the forest with leaves [ls]. *)
Definition merkle_file (H : N -> N -> N) (ls : list N) : list N := file_format (size ls) (nh H (leaf_at ls)).

(** Its length in bytes. *)
Definition file_length (n : N) : N := 8 + 32 * foldr (λ r s, n / 2 ^ N.of_nat r + s) 0 (seq 0 64).

(** Where the hash of node [(r, i)] starts in it. *)
Definition file_offset (n r i : N) : N := 8 + 32 * (foldr (λ k s, n / 2 ^ N.of_nat k + s) 0 (seq 0 (N.to_nat r)) + i).

(** The bytes from [a] to [a + k]. *)
Definition bytes_at (bs : list N) (a : N) (k : nat) : list N := take k (drop (N.to_nat a) bs).
