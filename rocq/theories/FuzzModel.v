(** * FuzzModel: the fuzz targets of src/fuzz (model)

    The drivers are small programs with assertions; [Ok tt] says that the target
    returns, so that no assertion failed and nothing undefined was done.  They are
    linked with the release build of the library (Makefile.am:42-51), without
    CHECK_SAFE. *)
From Verif Require Import Base StateModel CodecModel ForestModel PollardModel.

(** fuzz.h:24-35 FUZZ_CONSUME: the target returns if too few bytes are left, [stop]
    is what the destructors do then; otherwise [memcpy] reads a value in the byte order
    of the machine, here little endian. *)
Fixpoint le_value (l : list N) : N := match l with [] => 0 | b :: l' => b + 256 * le_value l' end.
Definition consume (k : nat) (stop : res unit) (data : list N) (cont : N -> list N -> res unit) : res unit :=
  if (length data <? k)%nat then stop else cont (le_value (take k data)) (drop k data).

(** fuzz.h:37-45 FUZZ_CONSUME_VEC with [k] byte elements.  (The macro multiplies
    without parentheses around its argument; the arguments used are one name, or a sum
    with element size 1.) *)
Fixpoint consume_many (k len : nat) (data : list N) : list N :=
  match len with O => [] | S len' => le_value (take k data) :: consume_many k len' (drop k data) end.
Definition consume_vec (k len : nat) (stop : res unit) (data : list N) (cont : list N -> list N -> res unit) : res unit :=
  if (length data <? k * len)%nat then stop else cont (consume_many k len data) (drop (k * len) data).

(** fuzz.h:47-49 FUZZ_CONSUME_BOOL. *)
Definition consume_bool (stop : res unit) (data : list N) (cont : bool -> list N -> res unit) : res unit :=
  consume 1 stop data (fun x => cont (N.odd x)).

(** batchproof.cpp:7-19. *)
Definition fuzz_batchproof (data : list N) : res unit :=
  consume 1 (Ok tt) data (fun num_targets data => consume 1 (Ok tt) data (fun num_hashes data =>
  consume_vec 1 (N.to_nat (8 + num_targets * 4 + num_hashes * 32)) (Ok tt) data (fun proof_bytes _ =>
    let* r := bp_Unserialize BatchProofNull proof_bytes in
    if (r.1 : bool) then
      let* bytes := bp_Serialize r.2 in assert_ (vec_eqb proof_bytes bytes)
    else Ok tt))).

(** forest_state.cpp:7-30.  (The call of Path is commented out in the code.) *)
Definition fuzz_state_body (n : N) (targets : list N) : res unit :=
  let targets := sortN targets in
  let* _ := ProofPositions n targets in
  let* _ := Transform n targets in
  let* _ := CheckTargetsSanity n targets in
  let* _ := UndoTransform n targets in
  Ok tt.
Definition fuzz_forest_state (data : list N) : res unit :=
  consume 8 (Ok tt) data (fun num_leaves data =>
    let* _ := RootPositions num_leaves in
    consume 2 (Ok tt) data (fun num_targets data =>
    consume_vec 8 (N.to_nat num_targets) (Ok tt) data (fun targets _ => fuzz_state_body num_leaves targets))).

Section WithHash.
Context (H : hash -> hash -> hash).

(** pollard.cpp:9-20 SetHash: the bytes of the number, least significant first, then
    0xFF, then zeros. *)
Definition SetHash (num : N) : hash :=
  be_value ([num mod 256; (num / 256) mod 256; (num / 65536) mod 256; (num / 16777216) mod 256; 255] ++ replicate 27 0).

(** The end of the target: the forest is destroyed.  Its file was never opened, so
    m_file.good() holds and ~RamForest calls Commit, whose writes fail silently
    (ram_forest.cpp:117-124). *)
Definition destroy (f : forest) : res unit := let* _ := F_Commit f [] in Ok tt.

(** pollard.cpp:30-36: [k] more leaves, the next one with number [i]. *)
Fixpoint fuzz_leaves (k : nat) (i : N) (stop : res unit) (data : list N) (acc : list leaf) (cont : list leaf -> list N -> res unit) : res unit :=
  match k with
  | O => cont acc data
  | S k' => consume_bool stop data (fun b data => fuzz_leaves k' (i + 1) stop data (acc ++ [(SetHash i, b)]) cont)
  end.

(** pollard.cpp:44-50: the hashes of the leaves to remove. *)
Fixpoint fuzz_targets (f : forest) (k : nat) (i : N) (data : list N) (acc : list hash) (cont : list hash -> list N -> res unit) : res unit :=
  match k with
  | O => cont acc data
  | S k' => consume_bool (destroy f) data (fun b data =>
      let* h := (if (b : bool) then let* x := F_GetLeaf f i in Ok [x] else Ok []) in
      fuzz_targets f k' (i + 1) data (acc ++ h) cont)
  end.

(** pollard.cpp:59-62: the proof with its first hash set to zero. *)
Definition spoil (bp : batch_proof) : batch_proof :=
  BatchProof (m_targets bp) (match m_proof bp with [] => [] | _ :: hs => zero_hash :: hs end).

(** pollard.cpp:57-77. *)
Definition fuzz_verify (f : forest) (p : pollard) (targets : list hash) (proof : batch_proof) (proof_ok : bool) : res unit :=
  if (0 <? size (m_proof proof)) && negb proof_ok then
    let* v := P_Verify H p (spoil proof) targets in
    let* _ := assert_ (negb v.1) in
    destroy f
  else
    let* v := P_Verify H p proof targets in
    let* _ := assert_ v.1 in
    let* mf := F_ModifyUndo H f [] (m_sorted_targets proof) in
    let* _ := assert_ mf.1.1 in
    let* mp := P_Modify H v.2 [] (m_sorted_targets proof) in
    let* _ := assert_ mp.1 in
    let* pr := P_Roots mp.2 in
    let* _ := assert_ (vec_eqb (F_Roots mf.2) pr) in
    destroy mf.2.

(** pollard.cpp:22-78. *)
Definition fuzz_pollard (data : list N) : res unit :=
  let f0 := RamForest_new 0 in
  consume 1 (destroy f0) data (fun x data =>
  let num_leaves := N.to_nat (N.land x 127) in
  fuzz_leaves num_leaves 0 (destroy f0) data [] (fun leaves data =>
    let* mf := F_ModifyUndo H f0 leaves [] in
    let* _ := assert_ mf.1.1 in
    let f := mf.2 in
    let* mp := P_Modify H (Pollard_new 0) leaves [] in
    let* _ := assert_ mp.1 in
    fuzz_targets f num_leaves 0 data [] (fun targets data =>
      let* r := F_Prove f targets in
      match r with
      | None => Abort
      | Some proof => consume_bool (destroy f) data (fun proof_ok _ => fuzz_verify f mp.2 targets proof proof_ok)
      end))).
End WithHash.
