(** * Properties C65, C66: byte order and bit counting (theorems) *)
From Verif Require Import Base StateModel CodecModel ByteModel CodecSpec ByteFacts.

(** C65: with configure.ac as it is, which never defines WORDS_BIGENDIAN, a big endian
    machine without the conversion functions of the system writes little endian
    numbers into proofs, undo batches, files and hash input. *)
Theorem C65_byte_order_refuted : exists h x, h_words_big h = false /\ mWriteBE32 h x <> be 4 x /\ mWriteBE64 h x <> be 8 x.
Proof. exact byte_order_refuted_lem. Qed.
Print Assumptions C65_byte_order_refuted.

(** On every other machine, and if WORDS_BIGENDIAN is set right, the helpers write
    the bytes in the order of their names, and what one such machine writes another
    one reads.  Missing: the machines of the refutation. *)
Theorem C65_byte_order_partial h h' x a c :
  h_decl h = true \/ h_words_big h = h_big h -> h_decl h' = true \/ h_words_big h' = h_big h' -> byte_string a -> byte_string c ->
  mWriteBE32 h x = be 4 x /\ mWriteBE64 h x = be 8 x /\ mWriteLE16 h x = le 2 x /\ mWriteLE32 h x = le 4 x /\ mWriteLE64 h x = le 8 x /\
  mReadBE32 h' (a ++ mWriteBE32 h x ++ c) (size a) = Ok (x mod 2 ^ 32) /\ mReadBE64 h' (a ++ mWriteBE64 h x ++ c) (size a) = Ok (x mod 2 ^ 64) /\
  mReadLE16 h' (a ++ mWriteLE16 h x ++ c) (size a) = Ok (x mod 2 ^ 16) /\ mReadLE32 h' (a ++ mWriteLE32 h x ++ c) (size a) = Ok (x mod 2 ^ 32) /\
  mReadLE64 h' (a ++ mWriteLE64 h x ++ c) (size a) = Ok (x mod 2 ^ 64).
Proof. exact (byte_order_lem h h' x a c). Qed.
Print Assumptions C65_byte_order_partial.

(** There they are the functions that the rest of the model uses, also when they read
    past the end. *)
Theorem C65_helpers_partial h : h_decl h = true \/ h_words_big h = h_big h ->
  (forall x, mWriteBE32 h x = WriteBE32 x /\ mWriteBE64 h x = WriteBE64 x) /\
  forall bytes off, byte_string bytes -> mReadBE32 h bytes off = ReadBE32 bytes off /\ mReadBE64 h bytes off = ReadBE64 bytes off.
Proof. exact (helpers_lem h). Qed.
Print Assumptions C65_helpers_partial.

(** And the bucket hash of the position map is the little endian value of the first
    eight bytes. *)
Theorem C65_leaf_hasher_partial h x : h_decl h = true \/ h_words_big h = h_big h ->
  LeafHasher h x = Ok (be_value (rev (take 8 (be 32 x)))).
Proof. exact (LeafHasher_lem h x). Qed.
Print Assumptions C65_leaf_hasher_partial.

(** A little endian machine without and a big endian machine with the functions of
    the system; both as configure.ac leaves them. *)
Example C65_example : let h := Host false false false in let h' := Host true false true in
  (h_decl h = true \/ h_words_big h = h_big h) /\ (h_decl h' = true \/ h_words_big h' = h_big h') /\
  mem_bytes h 4 258 = [2; 1; 0; 0] /\ mem_bytes h' 4 258 = [0; 0; 1; 2] /\ bswap_32 258 = 33619968 /\
  mWriteBE32 h 258 = [0; 0; 1; 2] /\ mReadBE32 h' [7; 0; 0; 1; 2; 9] 1 = Ok 258.
Proof. repeat split; [by right|by left|vm_compute; reflexivity..]. Qed.

(** C66: the loop version of CountBits, which is the one that is built, returns the
    smallest k with x >> k = 0, as the model of the position arithmetic has it. *)
Theorem C66_count_bits x : x < 2 ^ 64 ->
  exists k, CountBitsLoop x = Ok k /\ k = CountBits x /\ x / 2 ^ k = 0 /\ (forall j, j < k -> x / 2 ^ j <> 0) /\ k <= 64.
Proof. exact (CountBits_lem x). Qed.
Print Assumptions C66_count_bits.

Example C66_example : CountBitsLoop 0 = Ok 0 /\ CountBitsLoop 5 = Ok 3 /\ CountBitsLoop (2 ^ 64 - 1) = Ok 64.
Proof. repeat split; vm_compute; reflexivity. Qed.
