(** * CheckedModel: the verify build

    [libutreexo_verify] (Makefile.am:29-32), the library the unit tests link, is
    compiled with UTREEXO_VERIFY, which turns CHECK_SAFE(cond) into "abort unless
    cond" (check.h:25-29).  The other model files leave these checks out, as the
    release build does.  Here are the functions of the forest that contain or reach
    a CHECK_SAFE, with the checks; [V_f] is the verify build of [f].  Calls that
    cannot reach a CHECK_SAFE are to the functions of the release build. *)
From Verif Require Import Base StateModel CodecModel ForestModel PollardModel.

(** state.cpp:77-81 LeftChild; the check is line 79. *)
Definition V_LeftChild (n pos : N) : res N :=
  let* _ := assert_ (n <=? pos) in LeftChild n pos.
(** state.cpp:83-86 Child. *)
Definition V_Child (n pos placement : N) : res N :=
  let* l := V_LeftChild n pos in Ok (N.lor l placement).
(** state.cpp:88-98 LeftDescendant; the check is line 90. *)
Definition V_LeftDescendant (n pos drop : N) : res N :=
  let* row := DetectRow n pos in
  let* _ := assert_ (drop <=? row) in LeftDescendant n pos drop.
(** state.cpp:601-612 Swap::ToLeaves. *)
Definition V_ToLeaves (n : N) (s : swap) : res swap :=
  let* row := DetectRow n (m_from s) in
  if row =? 0 then Ok s else
  let* f := V_LeftDescendant n (m_from s) row in
  let* t := V_LeftDescendant n (m_to s) row in
  let* r := shl64 1 row in
  Ok (mk_range_swap f t r).
(** state.cpp:391-405 UndoTransform. *)
Definition V_UndoTransform (n : N) (targets : list N) : res (list swap) :=
  let* prev := Transform n targets in
  mapM_ (V_ToLeaves n) (List.filter (fun s => negb (m_from s =? m_to s)) (concat prev)).

(** ram_forest.cpp:227-244 SwapSubTrees. *)
Definition VF_SwapSubTrees (f : forest) (from to : N) : res (forest * N) :=
  let* row := DetectRow (f_n f) from in
  let* row_to := DetectRow (f_n f) to in
  let* _ := assert_ (row =? row_to) in
  let* from' := V_LeftDescendant (f_n f) from row in
  let* to' := V_LeftDescendant (f_n f) to row in
  if 31 <=? row then UB else
  swap_subtrees_loop 64 f from' to' (2 ^ row).
(** accumulator.cpp:123-133 UpdatePositionMapForSubtreeSwap. *)
Definition VF_UpdatePositionMapForSubtreeSwap (f : forest) (from to : N) : res forest :=
  let* row := DetectRow (f_n f) from in
  let* start_from := V_LeftDescendant (f_n f) from row in
  let* start_to := V_LeftDescendant (f_n f) to row in
  let* range := shl64 1 row in
  F_UpdatePositionMapForRange f start_from start_to range.
(** accumulator.cpp:208-212. *)
Fixpoint VF_do_swaps (f : forest) (ss : list swap) : res (forest * list N) :=
  match ss with
  | [] => Ok (f, [])
  | s :: ss' =>
      let* f1 := VF_UpdatePositionMapForSubtreeSwap f (m_from s) (m_to s) in
      let* fd := VF_SwapSubTrees f1 (m_from s) (m_to s) in
      let* r := VF_do_swaps fd.1 ss' in
      Ok (r.1, if m_collapse s then r.2 else fd.2 :: r.2)
  end.

(** accumulator.cpp:137-145: no leaf to add is in the position map. *)
Definition unknown_leaves (m : gmap N N) (ls : list leaf) : bool :=
  forallb (fun l : leaf => match m !! l.1 with Some _ => false | None => true end) ls.

(** ram_forest.cpp:468-479: every hash of the bottom row is in the position map with
    its position.  [int pos] is compared with a uint64_t. *)
Fixpoint positions_ok (m : gmap N N) (pos : N) (row0 : list hash) : bool :=
  match row0 with
  | [] => true
  | h :: hs => match m !! h with
               | None => false
               | Some p => (p =? pos) && positions_ok m (pos + 1) hs
               end
  end.

Section WithHash.
Context (H : hash -> hash -> hash).

(** ram_forest.cpp:53-70 Node::ReHash. *)
Definition VF_ReHash (f : forest) (nl pos : N) : res forest :=
  let* l := V_Child nl pos 0 in
  let* r := V_Child nl pos 1 in
  let* lh := F_Read f l in
  let* rh := F_Read f r in
  let* row := DetectRow nl pos in
  let* offset := RowOffset nl pos in
  let* rd := vec_at (f_data f) row in
  let* rd' := vec_set rd (sub64 pos offset) (H lh rh) in
  let* d := vec_set (f_data f) row rd' in
  Ok (set_data f d).
(** accumulator.cpp:216-222. *)
Fixpoint VF_rehash_dirt (f : forest) (st : N) (dirt acc : list N) : res (forest * list N) :=
  match dirt with
  | [] => Ok (f, acc)
  | d :: ds =>
      let* f1 := VF_ReHash f st d in
      let* pp := Parent st d in
      let* acc' :=
        (match last acc with
         | Some b => if b =? pp then Ok acc
                     else let* p := F_Parent st d in
                          Ok (match p with Some x => acc ++ [x] | None => acc end)
         | None => let* p := F_Parent st d in
                   Ok (match p with Some x => acc ++ [x] | None => acc end)
         end) in
      VF_rehash_dirt f1 st ds acc'
  end.
(** accumulator.cpp:203-225. *)
Fixpoint VF_remove_rows (k : nat) (row st : N) (swaps : list (list swap))
    (f : forest) (dirt : list N) : res (forest * list N) :=
  match k with
  | O => Ok (f, dirt)
  | S k' =>
      let* fd :=
        (if row <? size swaps then
           let* ss := vec_at swaps row in
           let* r := VF_do_swaps f ss in
           Ok (r.1, dirt ++ r.2)
         else Ok (f, dirt)) in
      let* r := VF_rehash_dirt fd.1 st fd.2 [] in
      VF_remove_rows k' (row + 1) st swaps r.1 r.2
  end.
(** accumulator.cpp:185-234 Remove. *)
Definition VF_Remove (f : forest) (targets : list N) : res (bool * forest) :=
  match targets with
  | [] => Ok (true, f)
  | _ =>
      let st := f_n f in
      let* sane := CheckTargetsSanity st targets in
      if negb sane then Ok (false, f) else
      let* swaps := Transform st targets in
      let* fd := VF_remove_rows (N.to_nat (NumRows st)) 0 st swaps f [] in
      let* _ := assert_ (size fd.2 =? 0) in
      let next := sub64 (f_n fd.1) (size targets) in
      let* f1 := F_FinalizeRemove fd.1 next in
      Ok (true, set_n f1 next)
  end.
(** ram_forest.cpp:323-341 Add, with the check of accumulator.cpp:137 after the
    preallocation. *)
Definition VF_Add (f : forest) (ls : list leaf) : res forest :=
  let next := add64 (f_n f) (size ls) in
  let* d := foldM (F_resize_row next) (f_data f) (nseq 0 (NumRows next + 1)) in
  let* _ := assert_ (NumRows next <? size d) in
  let* _ := assert_ (unknown_leaves (f_posmap f) ls) in
  let* f' := foldM (F_add_leaf H) (set_data f d) ls in
  let* _ := assert_ (next =? f_n f') in
  let* _ := assert_ (N.of_nat (base.size (f_posmap f')) =? f_n f') in
  Ok f'.
(** accumulator.cpp:24-30 Modify and ram_forest.cpp:343-352 with an undo batch. *)
Definition VF_Modify (f : forest) (ls : list leaf) (targets : list N) : res (bool * forest) :=
  let* r := VF_Remove f targets in
  if negb r.1 then Ok (false, r.2) else
  let* f' := VF_Add r.2 ls in
  Ok (true, f').
Definition VF_ModifyUndo (f : forest) (ls : list leaf) (targets : list N)
    : res (bool * option undo_batch * forest) :=
  let* r := VF_Remove f targets in
  if negb r.1 then Ok (false, None, r.2) else
  let* u := F_BuildUndoBatch r.2 (size ls) targets in
  match u with
  | None => Ok (false, None, r.2)
  | Some u =>
      let* f' := VF_Add r.2 ls in
      Ok (true, Some u, f')
  end.

(** ram_forest.cpp:455-461 and 451-463. *)
Fixpoint V_undo_rehash (f : forest) (st : N) (dirt acc : list N) : res (forest * list N) :=
  match dirt with
  | [] => Ok (f, acc)
  | d :: ds =>
      let* f1 := VF_ReHash f st d in
      let* p := F_Parent st d in
      let acc' := match p with
                  | None => acc
                  | Some x => match last acc with
                              | Some b => if b =? x then acc else acc ++ [x]
                              | None => acc ++ [x]
                              end
                  end in
      V_undo_rehash f1 st ds acc'
  end.
Fixpoint V_undo_rows (k : nat) (r st : N) (f : forest) (dirt : list N) : res forest :=
  match k with
  | O => Ok f
  | S k' =>
      let* rd := vec_get (f_data f) r in
      let* sz := shr64 (f_n f) r in
      let* d := vec_set (f_data f) r (vec_resize rd sz zero_hash) in
      let* x := V_undo_rehash (set_data f d) st dirt [] in
      V_undo_rows k' (r + 1) st x.1 x.2
  end.
(** ram_forest.cpp:378-482 Undo; the checks at the end are lines 467 and 468. *)
Definition VF_Undo (f : forest) (u : undo_batch) : res (bool * forest) :=
  if size (f_data f) =? 0 then Ok (true, f) else
  let adds := m_num_additions u in
  let prev := sub64 (add64 (f_n f) (size (m_deleted_positions u))) adds in
  let* swaps := V_UndoTransform prev (m_deleted_positions u) in
  let start := sub64 (f_n f) adds in
  let* e := undo_erase f (f_posmap f) (nseq start (f_n f - start)) in
  if negb e.1 then Ok (false, set_posmap f e.2) else
  let* row0 := vec_get (f_data f) 0 in
  let* _ := int_loop (size (m_deleted_hashes u)) in
  let* pl := undo_place start 0 (vec_resize row0 prev zero_hash) e.2 [] (m_deleted_hashes u) in
  let '(placed, row0', m', dirt) := pl in
  let* d := vec_set (f_data f) 0 row0' in
  if negb placed then Ok (false, Forest start d (f_roots f) m') else
  let f1 := Forest prev d (f_roots f) m' in
  let* fs := undo_swaps_loop f1 dirt (rev swaps) in
  let dirt_list := dedup_sorted (sortN fs.2) in
  let* dirt0 := undo_first_dirt prev dirt_list [] in
  let* f2 := V_undo_rows (N.to_nat (NumRows prev)) 1 prev fs.1 dirt0 in
  let* f3 := F_RestoreRoots f2 in
  let* r0 := vec_get (f_data f3) 0 in
  let* _ := assert_ (size r0 =? N.of_nat (base.size (f_posmap f3))) in
  let* _ := int_loop (size r0) in
  let* _ := assert_ (positions_ok (f_posmap f3) 0 r0) in
  Ok (true, f3).

(** ** Pollard: the checks on the position map

    Only accumulator.cpp:137 and pollard.cpp:583 and 592 are added.  The checks at
    pollard.cpp:238, 247 and 326 are that pointers are not null that are dereferenced
    right after them, which is undefined in the release build.  The checks of LeftChild
    and LeftDescendant (state.cpp:79 and 90) are left out for the pollard: the first is
    reached only from InitChildrenOfComputed, for positions that CreateProofTree has
    just compared with the number of leaves (pollard.cpp:448-532); the second is reached
    from UpdatePositionMapForSubtreeSwap for the same swaps as in the forest, where it
    is modelled. *)

(** accumulator.cpp:24-30 and 135-183 on a Pollard. *)
Definition VP_Modify (p : pollard) (ls : list leaf) (targets : list N) : res (bool * pollard) :=
  let* r := P_Remove H p targets in
  if negb r.1 then Ok (false, r.2) else
  let* _ := assert_ (unknown_leaves (p_posmap r.2) ls) in
  let* p' := P_Add H r.2 ls in
  Ok (true, p').

(** pollard.cpp:555-628: one node of the proof tree.  The checks only read, so they are
    put in front of the function of the release build: they are made if the node is a
    target leaf with a hash to compare with (583) and if it is cached with that hash
    (592). *)
Definition leaf_check (p : pollard) (t : wtab) (ths : list hash) (x : N) : res unit :=
  let* w := vec_get t x in
  let fl := w_flag w in
  if negb (v_target fl) || negb (w_pos w <? p_n p) then Ok tt else
  match ths with
  | [] => Ok tt
  | th :: _ =>
      let* _ := assert_ (v_target fl) in
      if negb (v_cached fl) then Ok tt else
      let* i := deref (p_heap p) (w_node w) in
      if negb (i_hash i.2 =? th) then Ok tt else
      let* rp := RootPosition (p_n p) 0 in
      assert_ ((w_pos w =? rp) || is_rem (i_l i.2) ||
               match p_posmap p !! th with Some _ => true | None => false end)
  end.
Definition V_verify_node (p : pollard) (t : wtab) (ths : list hash) (next : list N) (x : N)
    : res (pollard * wtab * list hash * list N * vres) :=
  let* _ := leaf_check p t ths x in verify_node H p t ths next x.
Fixpoint V_verify_row (p : pollard) (t : wtab) (ths : list hash) (next xs : list N)
    : res (pollard * wtab * list hash * list N * vres) :=
  match xs with
  | [] => Ok (p, t, ths, next, VGo)
  | x :: xs' =>
      let* r := V_verify_node p t ths next x in
      let '(p1, t1, ths1, next1, v) := r in
      match v with
      | VGo => V_verify_row p1 t1 ths1 next1 xs'
      | _ => Ok (p1, t1, ths1, next1, v)
      end
  end.
Fixpoint V_verify_rows (fuel : nat) (p : pollard) (t : wtab) (ths : list hash) (xs : list N)
    : res (pollard * wtab * bool) :=
  match xs with
  | [] => Ok (p, t, match ths with [] => true | _ => false end)
  | _ =>
      match fuel with
      | O => NoFuel
      | S k =>
          let* r := V_verify_row p t ths [] xs in
          let '(p1, t1, ths1, next, v) := r in
          match v with
          | VGo => V_verify_rows k p1 t1 ths1 next
          | _ => Ok (p1, t1, false)
          end
      end
  end.
(** pollard.cpp:640-716 Verify. *)
Definition VP_Verify (p : pollard) (bp : batch_proof) (ths : list hash) : res (bool * pollard) :=
  if negb (size ths =? size (m_targets bp)) then Ok (false, p) else
  let* sane := bp_CheckSanity bp (p_n p) in
  if negb sane then Ok (false, p) else
  match m_targets bp with
  | [] => Ok (true, p)
  | _ =>
      let k := length (p_roots p) in
      let* ct := P_CreateProofTree p bp in
      let '(p1, t1, rec, xs, create_ok) := ct in
      let* v := (if (create_ok : bool) then V_verify_rows 66 p1 t1 ths xs
                 else Ok (p1, t1, false)) in
      let '(p2, t2, ok) := v in
      if negb ok then
        let* h := foldM (recover t2) (p_heap p2) rec in
        Ok (false, p_set_roots (p_set_heap p2 h) (roots_of_tab t2 k))
      else
        let* _ := int_loop (size ths) in
        let* m := foldM (fun m i =>
                           let* h := vec_get ths i in
                           let* pos := vec_get (m_sorted_targets bp) i in
                           Ok (<[h := pos]> m)) (p_posmap p2) (nseq 0 (size ths)) in
        Ok (true, p_set_roots (p_set_posmap p2 m) (roots_of_tab t2 k))
  end.
End WithHash.
