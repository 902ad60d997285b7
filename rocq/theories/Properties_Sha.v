(** * Properties C34 and C35: the hash function *)
From Verif Require Import Base CodecModel CodecSpec Sha512Model Sha512Spec Sha512Facts.

(** C34: Accumulator::ParentHash is SHA-512/256 of the 64 byte string
    left || right, whatever the uninitialised buffer contains. *)
Theorem C34_parent_hash (buf left right : list N) :
  length buf = 128%nat ->
  byte_string left -> byte_string right -> length left = 32%nat -> length right = 32%nat ->
  ParentHash_bytes buf left right = Ok (SHA512_256 (left ++ right)).
Proof. exact (C34_lem buf left right). Qed.
Print Assumptions C34_parent_hash.

(** The same on hashes as numbers: defined for all arguments, and the result is
    a 256 bit number (so ParentHash can stand for H in every theorem about
    forests and pollards). *)
Theorem C34_parent_hash_number (left right : hash) :
  ParentHash left right = Ok (parent_hash left right) /\
  parent_hash left right = value (SHA512_256 (be 32 left ++ be 32 right)) /\
  parent_hash left right < hash_bound.
Proof. exact (C34_hash_lem left right). Qed.
Print Assumptions C34_parent_hash_number.

(** The specification's constants are the ones FIPS 180-4 describes: K_t comes
    from the cube root of the t-th prime. *)
Theorem C34_constants (t : nat) (c : rcall) :
  round_calls !! t = Some c -> is_K t (rc_k c).
Proof. exact (C34_const_lem t c). Qed.
Print Assumptions C34_constants.

(** C35: any sequence of Write calls followed by Finalize gives the digest of
    the concatenation. *)
Theorem C35_any_split (buf : list N) (ds : list (list N)) :
  length buf = 128%nat -> Forall byte_string ds -> size (concat ds) < 2 ^ 61 ->
  (let* c := foldM sha_Write (CSHA512_512 buf) ds in sha_Finalize c) = Ok (SHA512 (concat ds)) /\
  (let* c := foldM sha_Write (CSHA512_256 buf) ds in sha_Finalize256 c) = Ok (SHA512_256 (concat ds)).
Proof. exact (C35_lem buf ds). Qed.
Print Assumptions C35_any_split.

(** Two ways of writing the same bytes give the same digest. *)
Theorem C35_split_insensitive (buf1 buf2 : list N) (ds1 ds2 : list (list N)) :
  length buf1 = 128%nat -> length buf2 = 128%nat ->
  Forall byte_string ds1 -> Forall byte_string ds2 ->
  concat ds1 = concat ds2 -> size (concat ds1) < 2 ^ 61 ->
  (let* c := foldM sha_Write (CSHA512_256 buf1) ds1 in sha_Finalize256 c) =
  (let* c := foldM sha_Write (CSHA512_256 buf2) ds2 in sha_Finalize256 c).
Proof. exact (C35_split_lem buf1 buf2 ds1 ds2). Qed.
Print Assumptions C35_split_insensitive.

(** The hypotheses are met by a message of 200 bytes written in pieces of 120,
    0, 8 and 72 bytes. *)
Example C35_meets :
  let ds := [replicate 120 1; []; replicate 8 2; replicate 72 255] in
  length (replicate 128 7) = 128%nat /\ Forall byte_string ds /\ size (concat ds) < 2 ^ 61.
Proof. exact C35_meets_lem. Qed.
