(** * UnitTests: the other unit tests of src/test/accumulator_tests.cpp

    These are tests of the model, not theorems about it: the programs of the test suite,
    run in the model with the real hash function.  They are checked by the build with
    [Check]; no proof term is stored.  A failed check of a test is [Throw].  Where the
    test ignores the result of a call, success is required here; simple_modified_proof
    also checks that the proof has three hashes, and ramforest_undo that the first
    addition changes the forest.  simple_batch_proof and
    simple_batchproof_verify_and_delete share their forest. *)
From Verif Require Import Base StateModel CodecModel ForestModel PollardModel Sha512Model FuzzModel UnitModel.

Notation "'test' r" := (ltac:(vm_compute; reflexivity) : r = Ok tt) (at level 200, only parsing).
Definition some {A} (x : option A) : res A := match x with Some a => Ok a | None => Throw end.
Definition F0 := RamForest_new 0.
Definition P0 := Pollard_new 0.
Definition th (i : N) : hash := SetHash i.
Definition mark (ms : list N) (ls : list leaf) : list leaf := (λ x : leaf, (x.1, existsb (λ i, th i =? x.1) ms)) <$> ls.
Definition FM (f : forest) (adds : list leaf) ts : res forest := let* r := F_ModifyUndo parent_hash f adds ts in let* _ := check r.1.1 in Ok r.2.
Definition PM (p : pollard) (adds : list leaf) ts : res pollard := let* r := P_Modify parent_hash p adds ts in let* _ := check r.1 in Ok r.2.
Definition PV (p : pollard) bp ths (b : bool) : res pollard := let* r := P_Verify parent_hash p bp ths in let* _ := check (Bool.eqb r.1 b) in Ok r.2.
Definition FP (f : forest) hs : res batch_proof := let* r := F_Prove f hs in some r.
Definition PP (p : pollard) hs : res batch_proof := let* r := P_Prove p hs in some r.
Definition same_roots (f : forest) (p : pollard) : res unit := let* rs := P_Roots p in check (vec_eqb (F_Roots f) rs).

(** 90-152 simple. *)
Definition t_simple : res unit :=
  let ls := test_leaves 0 64 in
  let* p := PM P0 ls [] in let* f := FM F0 ls [] in
  let* _ := check (vec_eqb (F_Roots f) [0x6692c043bfd19c717a07a931833b1748cff69aa4349110948907ab125f744c25]) in let* _ := same_roots f p in
  let hs := [th 0; th 2; th 3; th 9] in
  let* bp := FP f hs in let* p := PV p bp hs true in
  let* r := F_ModifyUndo parent_hash f [] (m_sorted_targets bp) in let* _ := check r.1.1 in let* u := some r.1.2 in
  let* p := PM p [] (m_sorted_targets bp) in
  let* _ := check (vec_eqb (F_Roots r.2) [0xb868b67e97610dc20fd4052d08c390cf8fc95eef3c7ee717aebc85a02e81cd68; 0x4a812f9dc3a1691f4b6de9ec07ecb2014a3c8839182592549a2d8508631cd908;
     0x891899fa84a5c8659b007ce655b7cc5cf4b92493477db1095518cfc732024ef2; 0xaee875faf7276a9817d0db6195414118b1348697d2e2abd4b3fcee46c579833b]) in
  let* _ := same_roots r.2 p in
  let* bytes := ub_Serialize u in let* c := ub_Unserialize (UndoBatch 0 [] []) bytes in let* _ := check (c.1 && ub_eqb c.2 u) in
  let* v := F_Undo parent_hash r.2 u in let* _ := check v.1 in
  check (vec_eqb (F_Roots v.2) [0x6692c043bfd19c717a07a931833b1748cff69aa4349110948907ab125f744c25]).
Check test t_simple.

(** 154-175 ramforest_disk. *)
Definition t_disk : res unit :=
  let ls := test_leaves 0 32 in
  let* new := F_OpenNew in
  let* f := FM new.1 ls [] in let* p := PM P0 ls [] in
  let* bp := FP f [th 0] in let* _ := PV p bp [th 0] true in
  let* file := F_Commit f new.2 in let* g := F_Restore file in
  let* c := FP g [th 0] in check (bp_eqb c bp).
Check test t_disk.

(** 178-195 batchproof_serialization. *)
Definition t_serialization : res unit :=
  let* f := FM F0 (test_leaves 0 32) [] in let* bp := FP f [th 0; th 1] in
  let* bytes := bp_Serialize bp in let* c := bp_Unserialize BatchProofNull bytes in check (c.1 && bp_eqb bp c.2).
Check test t_serialization.

(** 197-218 singular_leaf_prove. *)
Fixpoint singular (f : forest) (p : pollard) (hs : list hash) : res unit :=
  match hs with
  | [] => Ok tt
  | h :: hs' => let* bp := FP f [h] in let* p := PV p bp [h] true in let* p := P_Prune p in singular f p hs'
  end.
Definition t_singular : res unit :=
  let ls := test_leaves 0 8 in let* f := FM F0 ls [] in let* p := PM P0 ls [] in singular f p ls.*1.
Check test t_singular.

(** 220-242 simple_modified_proof. *)
Definition t_modified : res unit :=
  let ls := test_leaves 0 8 in let* f := FM F0 ls [] in let* p := PM P0 ls [] in let* bp := FP f [th 0] in
  let bad := BatchProof (m_sorted_targets bp) (take (length (m_proof bp) - 1) (m_proof bp) ++ [0]) in
  let* _ := check (length (m_proof bp) =? 3)%nat in let* _ := PV p bad [th 0] false in Ok tt.
Check test t_modified.

(** 244-274 simple_cached_proof. *)
Definition t_cached : res unit :=
  let ls := mark [0] (test_leaves 0 8) in let* f := FM F0 ls [] in let* p := PM P0 ls [] in let* bp := FP f [th 0] in
  match m_proof bp with
  | [a; b; c] =>
      let try p hs := PV p (BatchProof (m_sorted_targets bp) hs) [th 0] true in
      let* p := try p [a] in let* p := try p [b] in let* p := try p [c] in
      let* p := try p [a; b] in let* p := try p [a; c] in let* p := try p [b; c] in
      let* p := PV p bp [th 0] true in let* _ := try p [] in Ok tt
  | _ => Throw
  end.
Check test t_cached.

(** 276-293 simple_batch_proof and 295-337 simple_batchproof_verify_and_delete. *)
Definition t_batch : res unit :=
  let ls := test_leaves 0 15 in let* f := FM F0 ls [] in let* p := PM P0 ls [] in let* _ := same_roots f p in
  let hs := [th 0; th 7; th 8; th 14] in let unsorted := [th 7; th 8; th 14; th 0] in
  let* bp0 := FP f hs in let* _ := PV p bp0 hs true in
  let* bp := FP f unsorted in
  let* p := PV p bp unsorted false in let* p := PV p bp hs true in
  let* r := F_ModifyUndo parent_hash f [] (m_targets bp) in let* _ := check (negb r.1.1) in
  let* s := P_Modify parent_hash p [] (m_targets bp) in let* _ := check (negb s.1) in
  let* f' := FM r.2 [] (m_sorted_targets bp) in let* p' := PM s.2 [] (m_sorted_targets bp) in
  let* _ := same_roots f' p' in check (negb (vec_eqb (F_Roots f') (F_Roots f))).
Check test t_batch.

(** 339-374 hash_to_known_invalid_proof. *)
Definition t_known : res unit :=
  let ls := mark [0] (test_leaves 0 15) in let* f := FM F0 ls [] in let* p := PM P0 ls [] in
  let* _ := check (P_NumCachedLeaves p =? 1) in
  let hs := [th 4; th 5; th 6; th 7] in let* bp := FP f hs in let invalid := 256 ^ 32 - 1 in
  let* p := PV p (BatchProof (m_sorted_targets bp) [invalid]) hs false in let* p := PV p bp hs true in
  let* _ := check (P_NumCachedLeaves p =? 5) in
  let* bp := FP f [th 1] in
  let* p := PV p (BatchProof (m_sorted_targets bp) [invalid]) [th 1] false in let* p := PV p bp [th 1] true in
  check (P_NumCachedLeaves p =? 6).
Check test t_known.

(** 485-506 pollard_restore. *)
Definition t_restore : res unit :=
  let ls := test_leaves 0 15 in let* f := FM F0 ls [] in let* p := PM P0 ls [] in
  let hs := [th 4; th 5; th 6; th 7] in let* bp := FP f hs in let* p := PV p bp hs true in
  let* rs := P_Roots p in let* q := Pollard_restore rs 15 in let* _ := PV q bp hs true in Ok tt.
Check test t_restore.

(** 508-543 pollard_remember. *)
Definition t_remember : res unit :=
  let ls := mark [1; 2; 3] (test_leaves 0 8) in let* f := FM F0 ls [] in let* p := PM P0 ls [] in
  let hs := [th 0; th 2] in let* bp := FP f hs in
  let* p := PV p (BatchProof [0; 2] [th 1]) hs true in let* p := PV p bp hs true in
  let* p := PM p [] (m_sorted_targets bp) in let* f := FM f [] (m_sorted_targets bp) in
  let* b3 := FP f [th 3] in let* p := PM p [] (m_sorted_targets b3) in let* f := FM f [] (m_sorted_targets b3) in same_roots f p.
Check test t_remember.

(** 545-575 simple_pollard_prove. *)
Definition t_pollard_prove : res unit :=
  let ls := mark [0] (test_leaves 0 8) in let* f := FM F0 ls [] in let* p := PM P0 ls [] in
  let* a := FP f [th 0] in let* b := PP p [th 0] in let* _ := check (bp_eqb a b) in
  let* q := PM P0 (test_leaves 0 8) [] in let* _ := PV q b [th 0] true in Ok tt.
Check test t_pollard_prove.

(** 577-621 ramforest_undo. *)
Definition undo_step (f prev : forest) (adds : list leaf) ts : res forest :=
  let* r := F_ModifyUndo parent_hash f adds ts in let* _ := check r.1.1 in let* _ := check (negb (F_eqb r.2 prev)) in let* u := some r.1.2 in
  let* v := F_Undo parent_hash r.2 u in let* _ := check (v.1 && F_eqb v.2 prev) in Ok v.2.
Definition t_undo : res unit :=
  let ls := test_leaves 0 8 in let more := test_leaves 8 8 in
  let* f := undo_step F0 F0 ls [] in let* f := FM f ls [] in let* prev := FM F0 ls [] in
  let* bp := FP f [th 5; th 6; th 7] in let ts := m_sorted_targets bp in
  let* f := undo_step f prev [] ts in let* f := FM f [] ts in let* prev := FM prev [] ts in
  let* bp := FP f [th 2; th 4] in let* _ := undo_step f prev more (m_sorted_targets bp) in Ok tt.
Check test t_undo.

(** 623-648 simple_posmap_updates. *)
Definition compare (p : pollard) (f : forest) : res unit := let* b := ComparePositionMap (map_to_list (p_posmap p)) (f_posmap f) in check b.
Definition t_posmap : res unit :=
  let ls := mark [0; 7] (test_leaves 0 16) in let* f := FM F0 ls [] in let* p := PM P0 ls [] in
  let* _ := check (P_CountNodes p =? 10) in let* _ := compare p f in let* _ := check (P_NumCachedLeaves p =? 2) in
  let* bp := PP p [th 0] in let* p := PV p bp [th 0] true in
  let* p := PM p [] [0] in let* f := FM f [] [0] in compare p f.
Check test t_posmap.

(** 650-668 add_memorable_and_remove. *)
Definition t_memorable : res unit :=
  let ls := mark [0] (test_leaves 0 8) in let* _ := FM F0 ls [] in let* p := PM P0 ls [] in
  let* _ := PP p [th 0] in let* _ := check (P_NumCachedLeaves p =? 1) in let* _ := PM p [] [0] in Ok tt.
Check test t_memorable.

(** 376-483 simple_blockchain with the real hash function: one block, and random
    numbers that add at most seven leaves. *)
Definition rnd_test (k a b : N) : N := a + (k * 5 + 3) mod N.min (b - a + 1) 7.
Check test (simple_blockchain parent_hash rnd_test 1).
