(** * UnitModel: the unit test simple_blockchain (model)

    src/test/accumulator_tests.cpp:376-483, for every number of blocks and every outcome
    of the random choices.  A failed check of the test stops the model with [Throw]
    (Boost goes on and reports the failure at the end); the other outcomes have their
    usual meaning. *)
From Verif Require Import Base StateModel CodecModel ForestModel PollardModel FuzzModel.

(** BOOST_CHECK and BOOST_TEST. *)
Definition check (b : bool) : res unit := if b then Ok tt else Throw.

(** accumulator_tests.cpp:23-30 CreateTestLeaves.  SetHash (14-21) is the same function as in the
    fuzz target. *)
Definition test_leaves (offset count : N) : list leaf := (λ i, (SetHash i, false)) <$> nseq offset count.

(** [unique_hash += adds.size()] on an [int]. *)
Definition int_add (a b : N) : res N := if int_max <? a + b then UB else Ok (a + b).

Section Unit.
Context (H : hash -> hash -> hash).
(** [rnd k a b] is the [k]-th random number, drawn from the numbers from [a] to [b]
    (std::uniform_int_distribution). *)
Context (rnd : N -> N -> N -> N).

(** 411-418: the loop that selects the leaves to delete, from draw [k] on; the number of
    the next draw and the hashes.  [max] is NumLeaves()-1 as an [int]: for an empty forest
    it is -1 in the code and 0 here, and the loop ends at once in both cases.  The forest
    holds fewer than 2^31 leaves, so that the conversion is exact. *)
Fixpoint select (fuel : nat) (f : forest) (k min max : N) (acc : list hash) : res (N * list hash) :=
  if (0 <? max) && negb (min =? max) then
    match fuel with
    | O => NoFuel
    | S fuel' =>
        let del_index := rnd k min max in
        let* h := F_GetLeaf f del_index in
        select fuel' f (k + 1) (if max <? del_index + 1 then max else del_index + 1) max (acc ++ [h])
    end
  else Ok (k, acc).

(** 449-454: the pollard [p] proves each of the hashes to the pollard [foo]. *)
Fixpoint prove_each (p foo : pollard) (hs : list hash) : res unit :=
  match hs with
  | [] => Ok tt
  | h :: hs' =>
      let* r := P_Prove p [h] in
      match r with
      | None => Throw
      | Some leaf_proof =>
          let* v := P_Verify H foo leaf_proof [h] in
          let* _ := check v.1 in
          let* foo' := P_Prune v.2 in
          prove_each p foo' hs'
      end
  end.

(** What the loop over the blocks carries along: the forest, the pollard, unique_hash, the
    number of the next draw, and the undo batches with the roots they lead back to (last
    one first; the code appends). *)
Record chain_state := ChainState {
  c_full : forest;
  c_pruned : pollard;
  c_unique : N;
  c_draw : N;
  c_undos : list (undo_batch * list hash) }.

(** 403-467: one block. *)
Definition block (s : chain_state) : res chain_state :=
  let full := c_full s in
  let num_adds := rnd (c_draw s) 1 128 in
  let adds := test_leaves (c_unique s) num_adds in
  let* unique := int_add (c_unique s) num_adds in
  let max := f_n full - 1 in
  let* sel := select (N.to_nat max) full (c_draw s + 1) 0 max [] in
  let leaf_hashes := sel.2 in
  let roots := F_Roots full in
  let* pr := F_Prove full leaf_hashes in
  match pr with
  | None => Throw
  | Some proof =>
      let ts := m_sorted_targets proof in
      let* m := F_ModifyUndo H full adds ts in
      let* _ := check m.1.1 in
      match m.1.2 with
      | None => Throw (* the batch is given whenever [true] is returned *)
      | Some undo =>
          let* u := F_Undo H m.2 undo in
          let* _ := check u.1 in
          let* _ := check (vec_eqb (F_Roots u.2) roots) in
          let* m2 := F_ModifyUndo H u.2 adds ts in
          let* _ := check m2.1.1 in
          let* v := P_Verify H (c_pruned s) proof leaf_hashes in
          let* _ := check v.1 in
          let* _ := check (P_NumCachedLeaves v.2 =? size leaf_hashes) in
          let* rs := P_Roots v.2 in
          let* foo := Pollard_restore rs (p_n v.2) in
          let* _ := prove_each v.2 foo leaf_hashes in
          let* mp := P_Modify H v.2 adds ts in
          let* _ := check mp.1 in
          let* _ := check (P_NumCachedLeaves mp.2 =? 0) in
          let* p' := (if 0 <? size (m_targets proof) then
                        let* w := P_Verify H mp.2 proof leaf_hashes in
                        let* _ := check (negb w.1) in Ok w.2
                      else Ok mp.2) in
          let* pruned_roots := P_Roots p' in
          let* _ := check (vec_eqb (F_Roots m2.2) pruned_roots) in
          Ok (ChainState m2.2 p' unique sel.1 ((undo, roots) :: c_undos s))
      end
  end.

Fixpoint blocks (num : nat) (s : chain_state) : res chain_state :=
  match num with
  | O => Ok s
  | S num' => let* s' := block s in blocks num' s'
  end.

(** 470-481: everything is undone; [height] counts the blocks. *)
Fixpoint rollback (f : forest) (undos : list (undo_batch * list hash)) : res forest :=
  match undos with
  | [] => Ok f
  | (undo, roots) :: undos' =>
      let* u := F_Undo H f undo in
      let* _ := check u.1 in
      let* _ := check (vec_eqb (F_Roots u.2) roots) in
      rollback u.2 undos'
  end.

(** 376-483.  The results of the first two calls of Modify are not checked.  [height] is
    -1 if there are as many undo batches as blocks.  At the end the forest is destroyed. *)
Definition simple_blockchain (num_blocks : nat) : res unit :=
  let adds := test_leaves 0 8 in
  let* mf := F_ModifyUndo H (RamForest_new 0) adds [] in
  let* mp := P_Modify H (Pollard_new 0) adds [] in
  let* s := blocks num_blocks (ChainState mf.2 mp.2 8 0 []) in
  let* f := rollback (c_full s) (c_undos s) in
  let* _ := check (length (c_undos s) =? num_blocks)%nat in
  destroy f.
End Unit.
