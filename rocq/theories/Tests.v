(** * Tests: the model reproduces the vectors of the repository's unit tests

    These are tests of the model, not theorems about it.  They are checked by the
    build with [Check]; no proof term is stored. *)
From Verif Require Import Base StateModel CodecModel Sha512Model ForestModel PollardModel.

(** src/test/accumulator_tests.cpp CreateTestLeaves: bytes 0-3 the index in
    little endian, byte 4 0xff. *)
Definition tleaf (i : N) : hash :=
  be_value ([i mod 256; i / 256 mod 256; 0; 0; 255] ++ replicate 27 0).
Definition tleaves (a len : N) : list leaf := (λ i, (tleaf i, false)) <$> nseq a len.

Definition roots_of (r : res (bool * forest)) : option (bool * N * list hash) :=
  match r with Ok (b, f) => Some (b, f_n f, F_Roots f) | _ => None end.

(** SHA-512/256 of 64 zero bytes. *)
(* test_sha *)
Check ltac:(vm_compute; reflexivity) :
  ParentHash 0 0 = Ok 0x8aeecfa0b9f2ac7818863b1362241e4f32d06b100ae9d1c0fbcc4ed61b91b17a.

Definition forest64 := F_Modify parent_hash (RamForest_new 0) (tleaves 0 64) [].

(* test_64_leaves *)
Check ltac:(vm_compute; reflexivity) :
  roots_of forest64 =
  Some (true, 64, [0x6692c043bfd19c717a07a931833b1748cff69aa4349110948907ab125f744c25]).

(* test_64_delete *)
Check ltac:(vm_compute; reflexivity) :
  roots_of (let* r := forest64 in F_Modify parent_hash r.2 [] [0;2;3;9]) =
  Some (true, 60,
   [0xb868b67e97610dc20fd4052d08c390cf8fc95eef3c7ee717aebc85a02e81cd68;
    0x4a812f9dc3a1691f4b6de9ec07ecb2014a3c8839182592549a2d8508631cd908;
    0x891899fa84a5c8659b007ce655b7cc5cf4b92493477db1095518cfc732024ef2;
    0xaee875faf7276a9817d0db6195414118b1348697d2e2abd4b3fcee46c579833b]).

(** src/test/state_tests.cpp *)
(* test_positions *)
Check ltac:(vm_compute; reflexivity) :
  (LeftChild 15 28, mapM_ (fun p => Ancestor 15 p 3) [0;1;2;3;4;5;6;7], LeftDescendant 15 26 2, Cousin 4)
  = (Ok 24, Ok [28;28;28;28;28;28;28;28], Ok 8, 6).

(* test_proof_positions *)
Check ltac:(vm_compute; reflexivity) :
  (ProofPositions 15 [0], ProofPositions 15 [0;2;3;6;8;10;11]) =
  (Ok ([1; 17; 25], [0; 16; 24; 28]),
   Ok ([1; 7; 9; 18], [0; 2; 3; 6; 8; 10; 11; 16; 17; 19; 20; 21; 24; 25; 26; 28])).

(** simple_posmap_updates: 16 leaves, leaves 0 and 7 remembered. *)
Definition toy_hash (a b : N) : N := (a * 1000003 + b * 10007 + 12345) mod 2 ^ 64.
Definition toy_leaves (remembered : list N) (a len : N) : list leaf :=
  (λ i, (100 + i, bool_decide (i ∈ remembered))) <$> nseq a len.

(* test_pollard_count *)
Check ltac:(vm_compute; reflexivity) :
  match P_Modify toy_hash (Pollard_new 0) (toy_leaves [0; 7] 0 16) [] with
  | Ok (true, p) => (P_CountNodes p, P_NumCachedLeaves p)
  | _ => (0, 0)
  end = (10, 2).
