(** * PrintModel: what the printing functions write to std::cout *)
From stdpp Require Import strings pretty.
From Verif Require Import Base StateModel CodecModel ForestModel PollardModel.

(** Text is a [string]; std::endl is one newline.  [pretty] writes a number in
    decimal, as [operator<<] does for a uint64_t with the default format and locale. *)
Definition newline : string := String (Ascii.ascii_of_nat 10) "".

(** The table in HexStr. *)
Definition hexmap : list string := ["0"; "1"; "2"; "3"; "4"; "5"; "6"; "7"; "8"; "9"; "a"; "b"; "c"; "d"; "e"; "f"]%string.

(** accumulator.cpp:48-60 and batchproof.cpp:13-25 HexStr. *)
Fixpoint HexStr (s : list N) : res string :=
  match s with
  | [] => Ok ""%string
  | v :: s' =>
      let* a := vec_get hexmap (N.shiftr v 4) in
      let* b := vec_get hexmap (N.land v 15) in
      let* r := HexStr s' in
      Ok (a +:+ b +:+ r)
  end.

(** state.cpp:13-18 print_vector. *)
Fixpoint print_vector (v : list N) : string :=
  match v with
  | [] => newline
  | i :: v' => pretty i +:+ " " +:+ print_vector v'
  end.

(** state.cpp:20-25 print_swaps. *)
Fixpoint print_swaps (v : list swap) : string :=
  match v with
  | [] => newline
  | i :: v' =>
      (if m_is_range_swap i then "r" else "_") +:+ (if m_collapse i then "c" else "_") +:+ " (" +:+
      pretty (m_from i) +:+ ", " +:+ pretty (m_to i) +:+ ") " +:+ pretty (m_range i) +:+ " " +:+ print_swaps v'
  end.

(** batchproof.cpp:120-124 and 219-223: a list of hashes. *)
Fixpoint print_hashes (hs : list hash) : res string :=
  match hs with
  | [] => Ok newline
  | h :: hs' =>
      let* a := HexStr (hash_bytes h) in
      let* r := print_hashes hs' in
      Ok (a +:+ ", " +:+ r)
  end.

(** batchproof.cpp:114-125 BatchProof::Print. *)
Definition bp_Print (p : batch_proof) : res string :=
  let* hs := print_hashes (m_proof p) in
  Ok ("targets: " +:+ print_vector (m_targets p) +:+ "proof: " +:+ hs)%string.

(** batchproof.cpp:212-224 UndoBatch::Print. *)
Definition ub_Print (u : undo_batch) : res string :=
  let* hs := print_hashes (m_deleted_hashes u) in
  Ok ("prev num adds: " +:+ pretty (m_num_additions u) +:+ newline +:+
      "deleted positions: " +:+ print_vector (m_deleted_positions u) +:+ "deleted hashes: " +:+ hs)%string.

(** accumulator.cpp:82-88 PrintPositionMap, for the entries in the order of the
    iteration over the map. *)
Fixpoint print_entries (es : list (hash * N)) : res string :=
  match es with
  | [] => Ok ""%string
  | (h, pos) :: es' =>
      let* a := HexStr (hash_bytes h) in
      let* r := print_entries es' in
      Ok (a +:+ " -> " +:+ pretty pos +:+ newline +:+ r)%string
  end.
Definition PrintPositionMap (es : list (hash * N)) : res string :=
  let* r := print_entries es in
  Ok ("pos map:" +:+ newline +:+ r)%string.

(** accumulator.cpp:90-95 PrintRoots, for the pairs of position and hash of the roots. *)
Fixpoint print_roots (rs : list (N * hash)) : res string :=
  match rs with
  | [] => Ok ""%string
  | (pos, h) :: rs' =>
      let* a := HexStr (hash_bytes h) in
      let* r := print_roots rs' in
      Ok ("root: " +:+ pretty pos +:+ ":" +:+ a +:+ newline +:+ r)%string
  end.

(** On a RamForest: GetHash is Node::GetHash (ram_forest.cpp:45-48), m_hash. *)
Definition F_PrintRoots (f : forest) : res string := print_roots ((λ r, (rn_pos r, rn_hash r)) <$> f_roots f).

(** On a Pollard: GetHash is Node::GetHash (pollard.cpp:719-723). *)
Definition P_PrintRoots (p : pollard) : res string :=
  let* rs := mapM_ (fun r => let* h := P_GetHash (p_heap p) (pr_node r) in Ok (pr_pos r, h)) (p_roots p) in
  print_roots rs.
