(** * CodecModel: src/batchproof.cpp and the byte order helpers it uses

    Bytes are [N] below 256; buffers are lists of bytes. *)
From Verif Require Import Base StateModel.

Definition two32 : N := 4294967296.
Definition int_max : N := 2147483647.

(** [for (int i = 0; i < k; ++i)]: the last increment overflows if [k] exceeds
    the largest [int].  Used in front of the loop: a loop that would return
    early is also taken to be undefined in this case. *)
Definition int_loop (k : N) : res unit := if int_max <? k then UB else Ok tt.

(** crypto/common.h:70-74 WriteBE32 and 76-80 WriteBE64 applied to a value of
    the parameter type (the conversion to uint32_t truncates). *)
Definition WriteBE32 (x : N) : list N := be_bytes 4 (x mod two32).
Definition WriteBE64 (x : N) : list N := be_bytes 8 (x mod two64).

(** [len] bytes of a buffer from offset [off]; reading past the end of the
    vector is undefined. *)
Definition read_bytes (bytes : list N) (off len : N) : res (list N) :=
  if off + len <=? size bytes
  then Ok (take (N.to_nat len) (drop (N.to_nat off) bytes)) else UB.

(** crypto/common.h:56-61 ReadBE32, 63-68 ReadBE64. *)
Definition ReadBE32 (bytes : list N) (off : N) : res N :=
  let* b := read_bytes bytes off 4 in Ok (be_value b).
Definition ReadBE64 (bytes : list N) (off : N) : res N :=
  let* b := read_bytes bytes off 8 in Ok (be_value b).

(** memcpy of 32 bytes into a [Hash] (batchproof.cpp:85, 187). *)
Definition read_hash (bytes : list N) (off : N) : res hash :=
  let* b := read_bytes bytes off 32 in Ok (be_value b).
Definition hash_bytes (h : hash) : list N := be_bytes 32 h.

(** include/batchproof.h:12-54 class BatchProof. *)
Record batch_proof := BatchProofRaw {
  m_targets : list N;
  m_sorted_targets : list N;
  m_proof : list hash }.

(** include/batchproof.h:22-26 the constructor, 28 the default constructor and
    30-35 SetNull. *)
Definition BatchProof (targets : list N) (proof : list hash) : batch_proof :=
  BatchProofRaw targets (sortN targets) proof.
Definition BatchProofNull : batch_proof := BatchProofRaw [] [] [].

(** batchproof.cpp:27-50 BatchProof::Serialize.  [int data_offset] ends at the
    size of the buffer, so it overflows exactly when that exceeds INT_MAX. *)
Definition bp_Serialize (p : batch_proof) : res (list N) :=
  if int_max <? 8 + size (m_targets p) * 4 + size (m_proof p) * 32 then UB else
  Ok (WriteBE32 (size (m_targets p)) ++ WriteBE32 (size (m_proof p)) ++
      concat (WriteBE32 <$> m_targets p) ++ concat (hash_bytes <$> m_proof p)).

(** Loops reading [num] items of [width] bytes from [off] on
    (batchproof.cpp:75-79, 83-88, 180-183, 185-190).  Every successful read
    advances the offset by [width > 0], so [S (length bytes)] turns suffice. *)
Fixpoint read_many (fuel : nat) (rd : list N -> N -> res N) (width : N)
    (bytes : list N) (num off : N) : res (list N) :=
  if num =? 0 then Ok [] else
  match fuel with
  | O => NoFuel
  | S f =>
      let* x := rd bytes off in
      let* xs := read_many f rd width bytes (num - 1) (off + width) in
      Ok (x :: xs)
  end.

(** batchproof.cpp:52-93 BatchProof::Unserialize on an existing object [p]:
    the returned flag and the object afterwards.  [int data_offset] overflows
    when the accepted size exceeds INT_MAX.  The length check is computed in
    unsigned long long. *)
Definition bp_Unserialize (p : batch_proof) (bytes : list N) : res (bool * batch_proof) :=
  if size bytes <? 8 then Ok (false, p) else
  let* num_targets := ReadBE32 bytes 0 in
  let* num_hashes := ReadBE32 bytes 4 in
  if negb (size bytes =? w64 (8 + num_targets * 4 + num_hashes * 32)) then Ok (false, p) else
  let fuel := S (length bytes) in
  let* ts := read_many fuel ReadBE32 4 bytes num_targets 8 in
  let* hs := read_many fuel read_hash 32 bytes num_hashes (8 + 4 * num_targets) in
  let data_offset := 8 + 4 * num_targets + 32 * num_hashes in
  if int_max <? data_offset then UB else
  let* _ := assert_ (data_offset =? size bytes) in
  Ok (true, BatchProofRaw ts (sortN (m_sorted_targets p ++ ts)) hs).

(** batchproof.cpp:95-106 BatchProof::CheckSanity. *)
Definition bp_CheckSanity (p : batch_proof) (num_leaves : N) : res bool :=
  let* ok := CheckTargetsSanity num_leaves (m_sorted_targets p) in
  if negb ok then Ok false else
  let* pp := ProofPositions num_leaves (m_sorted_targets p) in
  Ok (size (m_proof p) <=? size pp.1).

(** Element-wise comparison of vectors of integers or hashes ([operator==]). *)
Fixpoint vec_eqb (a b : list N) : bool :=
  match a, b with
  | [], [] => true
  | x :: a', y :: b' => (x =? y) && vec_eqb a' b'
  | _, _ => false
  end.

(** batchproof.cpp:108-112 BatchProof::operator==. *)
Definition bp_eqb (p q : batch_proof) : bool :=
  (size (m_targets p) =? size (m_targets q)) && (size (m_proof p) =? size (m_proof q)) &&
  vec_eqb (m_targets p) (m_targets q) && vec_eqb (m_proof p) (m_proof q).

(** include/batchproof.h:57-83 class UndoBatch. *)
Record undo_batch := UndoBatch {
  m_num_additions : N;
  m_deleted_positions : list N;
  m_deleted_hashes : list hash }.

(** batchproof.cpp:133-156 UndoBatch::Serialize. *)
Definition ub_Serialize (u : undo_batch) : res (list N) :=
  if int_max <? 8 + size (m_deleted_positions u) * 4 + size (m_deleted_hashes u) * 32 then UB else
  Ok (WriteBE32 (m_num_additions u) ++ WriteBE32 (size (m_deleted_positions u)) ++
      concat (WriteBE32 <$> m_deleted_positions u) ++ concat (hash_bytes <$> m_deleted_hashes u)).

(** batchproof.cpp:158-195 UndoBatch::Unserialize.  The expected size
    [4 + 4 + 4 * num_targets + 32 * num_targets] is computed in uint32_t. *)
Definition ub_Unserialize (u : undo_batch) (bytes : list N) : res (bool * undo_batch) :=
  if size bytes <? 8 then Ok (false, u) else
  let* num_adds := ReadBE32 bytes 0 in
  let* num_targets := ReadBE32 bytes 4 in
  let expected := (8 + 4 * num_targets + 32 * num_targets) mod two32 in
  if negb (size bytes =? expected)
  then Ok (false, UndoBatch num_adds (m_deleted_positions u) (m_deleted_hashes u)) else
  let fuel := S (length bytes) in
  let* ts := read_many fuel ReadBE32 4 bytes num_targets 8 in
  let* hs := read_many fuel read_hash 32 bytes num_targets (8 + 4 * num_targets) in
  let data_offset := 8 + 4 * num_targets + 32 * num_targets in
  if int_max <? data_offset then UB else
  let* _ := assert_ (data_offset =? size bytes) in
  Ok (true, UndoBatch num_adds ts hs).

(** batchproof.cpp:203-210 UndoBatch::operator==. *)
Definition ub_eqb (u v : undo_batch) : bool :=
  (m_num_additions u =? m_num_additions v) &&
  (size (m_deleted_positions u) =? size (m_deleted_positions v)) &&
  (size (m_deleted_hashes u) =? size (m_deleted_hashes v)) &&
  vec_eqb (m_deleted_positions u) (m_deleted_positions v) &&
  vec_eqb (m_deleted_hashes u) (m_deleted_hashes v).
