(** * ForestModel: src/ram_forest.cpp and the parts of src/accumulator.cpp that
    RamForest inherits

    The virtual calls of Accumulator are resolved to the RamForest methods.
    [H] is Accumulator::ParentHash (accumulator.cpp:62-68); Sha512Model has the
    concrete function, everything proved here holds for every [H].

    Not modelled: memory exhaustion, fstream failures, the print functions. *)
From Verif Require Import Base StateModel CodecModel.

(** A root: RamForest::Node (ram_forest.cpp:17-45).  The back pointer m_forest
    is always [this]; m_parent (node.h:19) is never set by RamForest. *)
Record rnode := RNode { rn_hash : hash; rn_nl : N; rn_pos : N }.

(** include/ram_forest.h:15-28 and the protected members of Accumulator
    (include/accumulator.h:79-90).  The file is kept separately. *)
Record forest := Forest {
  f_n : N;
  f_data : list (list hash);
  f_roots : list rnode;
  f_posmap : gmap N N }.

Definition set_n (f : forest) (n : N) : forest := Forest n (f_data f) (f_roots f) (f_posmap f).
Definition set_data (f : forest) (d : list (list hash)) : forest :=
  Forest (f_n f) d (f_roots f) (f_posmap f).
Definition set_roots (f : forest) (r : list rnode) : forest :=
  Forest (f_n f) (f_data f) r (f_posmap f).
Definition set_posmap (f : forest) (m : gmap N N) : forest :=
  Forest (f_n f) (f_data f) (f_roots f) m.

Definition leaf := (hash * bool)%type. (* accumulator.h:18 *)

(** ram_forest.cpp:92-96 RamForest(num_leaves) and accumulator.cpp:16-20. *)
Definition RamForest_new (num_leaves : N) : forest := Forest num_leaves [[]] [] ∅.

(** ram_forest.cpp:187-197 Read(state, pos): never nullopt. *)
Definition F_ReadState (f : forest) (st pos : N) : res hash :=
  let* row := DetectRow st pos in
  let* offset := RowOffset st pos in
  let* _ := assert_ (row <? size (f_data f)) in
  let* row_data := vec_at (f_data f) row in
  let* _ := assert_ (sub64 pos offset <? size row_data) in
  vec_at row_data (sub64 pos offset).

(** ram_forest.cpp:199-203 Read(pos). *)
Definition F_Read (f : forest) (pos : N) : res hash := F_ReadState f (f_n f) pos.

(** ram_forest.cpp:205-212 ReadLeafRange. *)
Definition F_ReadLeafRange (f : forest) (pos range : N) : res (list hash) :=
  mapM_ (F_Read f) (nseq pos range).

(** ram_forest.cpp:214-225 SwapRange: one std::swap per index. *)
Definition swap_elems (l : list hash) (a b : N) : res (list hash) :=
  let* x := vec_get l a in
  let* y := vec_get l b in
  let* l1 := vec_set l a y in
  vec_set l1 b x.
Definition F_SwapRange (f : forest) (from to range : N) : res forest :=
  let* row := DetectRow (f_n f) from in
  let* offset_from := RowOffset (f_n f) from in
  let* offset_to := RowOffset (f_n f) to in
  let* row_data := vec_at (f_data f) row in
  let* row_data' :=
    foldM (fun l i => swap_elems l (add64 (sub64 from offset_from) i)
                                   (add64 (sub64 to offset_to) i))
          row_data (nseq 0 range) in
  let* d := vec_set (f_data f) row row_data' in
  Ok (set_data f d).

(** ram_forest.cpp:237-241: the loop over ranges. *)
Fixpoint swap_subtrees_loop (fuel : nat) (f : forest) (from to range : N) : res (forest * N) :=
  if range =? 0 then Ok (f, to) else
  match fuel with
  | O => NoFuel
  | S k =>
      let* f' := F_SwapRange f from to range in
      let* from' := Parent (f_n f) from in
      let* to' := Parent (f_n f) to in
      swap_subtrees_loop k f' from' to' (N.shiftr range 1)
  end.

(** ram_forest.cpp:227-244 SwapSubTrees.  [1 << row] is an [int] shift: undefined
    for row >= 32; row = 31 gives INT_MIN, whose conversion to uint64_t makes
    the following SwapRange run out of range, so it is undefined as well.  Returns the forest and the position of the
    node to rehash. *)
Definition F_SwapSubTrees (f : forest) (from to : N) : res (forest * N) :=
  let* row := DetectRow (f_n f) from in
  let* row_to := DetectRow (f_n f) to in
  let* _ := assert_ (row =? row_to) in
  let* from' := LeftDescendant (f_n f) from row in
  let* to' := LeftDescendant (f_n f) to row in
  if 31 <=? row then UB else
  swap_subtrees_loop 64 f from' to' (2 ^ row).

(** ram_forest.cpp:268-278 NewLeaf; the returned node is the last root. *)
Definition F_NewLeaf (f : forest) (l : leaf) : res forest :=
  let* row0 := vec_get (f_data f) 0 in
  let* row0' := vec_set row0 (f_n f) l.1 in
  let* d := vec_set (f_data f) 0 row0' in
  Ok (Forest (f_n f) d (f_roots f ++ [RNode l.1 (f_n f) (f_n f)])
             (<[l.1 := f_n f]> (f_posmap f))).

(** ram_forest.cpp:246-266 MergeRoot.  The new node gets [m_data.at(row).back()],
    the element just pushed. *)
Definition F_MergeRoot (f : forest) (parent_pos : N) (parent_hash : hash) : res forest :=
  let* _ := assert_ (2 <=? size (f_roots f)) in
  let* r1 := vec_pop (f_roots f) in
  let* r2 := vec_pop r1 in
  let* row := DetectRow (f_n f) parent_pos in
  let* _ := assert_ (row <? size (f_data f)) in
  let* rd := vec_at (f_data f) row in
  let rd1 := rd ++ [parent_hash] in
  let* offset := RowOffset (f_n f) parent_pos in
  let* rd2 := vec_set rd1 (sub64 parent_pos offset) parent_hash in
  let* d := vec_set (f_data f) row rd2 in
  let* b := vec_back rd2 in
  Ok (Forest (f_n f) d (r2 ++ [RNode b (f_n f) parent_pos]) (f_posmap f)).

(** accumulator.cpp:97-121 UpdatePositionMapForRange.  [offset] is int64_t;
    adding it to a uint64_t is addition modulo 2^64. *)
Definition shift_positions (m : gmap N N) (hs : list hash) (off : N) : gmap N N :=
  fold_left (fun m h => match m !! h with
                        | Some p => <[h := add64 p off]> m
                        | None => m
                        end) hs m.
Definition F_UpdatePositionMapForRange (f : forest) (from to range : N) : res forest :=
  if (N.of_nat (base.size (f_posmap f)) =? 0) then Ok f else
  let* from_range := F_ReadLeafRange f from range in
  let* to_range := F_ReadLeafRange f to range in
  let m1 := shift_positions (f_posmap f) from_range (sub64 to from) in
  let m2 := shift_positions m1 to_range (sub64 from to) in
  Ok (set_posmap f m2).

(** accumulator.cpp:123-133 UpdatePositionMapForSubtreeSwap. *)
Definition F_UpdatePositionMapForSubtreeSwap (f : forest) (from to : N) : res forest :=
  let* row := DetectRow (f_n f) from in
  let* start_from := LeftDescendant (f_n f) from row in
  let* start_to := LeftDescendant (f_n f) to row in
  let* range := shl64 1 row in
  F_UpdatePositionMapForRange f start_from start_to range.

(** accumulator.cpp:32-40 Roots. *)
Definition F_Roots (f : forest) : list hash := rn_hash <$> f_roots f.

Section WithHash.
Context (H : hash -> hash -> hash).

(** ram_forest.cpp:53-70 Node::ReHash for the node at [pos] created with
    [nl] leaves. *)
Definition F_ReHash (f : forest) (nl pos : N) : res forest :=
  let* l := Child nl pos 0 in
  let* r := Child nl pos 1 in
  let* lh := F_Read f l in
  let* rh := F_Read f r in
  let* row := DetectRow nl pos in
  let* offset := RowOffset nl pos in
  let* rd := vec_at (f_data f) row in
  let* rd' := vec_set rd (sub64 pos offset) (H lh rh) in
  let* d := vec_set (f_data f) row rd' in
  Ok (set_data f d).

(** ram_forest.cpp:72-88 Node::Parent: [None] for a root. *)
Definition F_Parent (nl pos : N) : res (option N) :=
  let* parent_pos := Parent nl pos in
  let* row := DetectRow nl pos in
  let* row_has_root := HasRoot nl row in
  let* rp := RootPosition nl row in
  Ok (if row_has_root && (rp =? pos) then None else Some parent_pos).

(** accumulator.cpp:155-161: the merging loop of Add.  [root] is the C++ int
    index, represented by [Some i], or [None] for -1; [nh], [npos] are hash and
    position of [new_root].  A [row] of 64 would be an undefined shift. *)
Fixpoint F_add_merge (fuel : nat) (f : forest) (st row : N) (root : option N)
    (nh : hash) (npos : N) : res forest :=
  let* hr := HasRoot st row in
  if (hr : bool) then
    match fuel with
    | O => NoFuel
    | S k =>
        let* rnd := (match root with
                     | Some i => vec_get (f_roots f) i
                     | None => UB
                     end) in
        let parent_hash := H (rn_hash rnd) nh in
        let* pp := Parent st npos in
        let* f' := F_MergeRoot f pp parent_hash in
        let* b := vec_back (f_roots f') in
        F_add_merge k f' st (row + 1)
          (match root with Some i => if i =? 0 then None else Some (i - 1) | None => None end)
          (rn_hash b) (rn_pos b)
    end
  else Ok f.

(** accumulator.cpp:149-180: one turn of the loop over the leaves. *)
Definition F_add_leaf (f : forest) (l : leaf) : res forest :=
  let st := f_n f in
  let root := (if size (f_roots f) =? 0 then None else Some (size (f_roots f) - 1)) in
  let* f1 := F_NewLeaf f l in
  let* f2 := F_add_merge 65 f1 st 0 root l.1 (f_n f) in
  let f3 := set_n f2 (add64 (f_n f2) 1) in
  let st' := f_n f3 in
  if (NumRows st =? 0) || (NumRows st =? NumRows st') then Ok f3 else
  let* _ := assert_ (2 <=? size (f_roots f3)) in
  let* p1 := RootPosition st' 0 in
  let* p0 := RootPosition st' (NumRows st' - 1) in
  let* r1 := vec_get (f_roots f3) 1 in
  let* rs1 := vec_set (f_roots f3) 1 (RNode (rn_hash r1) (rn_nl r1) p1) in
  let* r0 := vec_get rs1 0 in
  let* rs2 := vec_set rs1 0 (RNode (rn_hash r0) (rn_nl r0) p0) in
  Ok (set_roots f3 rs2).

(** ram_forest.cpp:327-333: preallocation of rows 0..k. *)
Definition F_resize_row (next : N) (d : list (list hash)) (row : N) : res (list (list hash)) :=
  let d1 := if size d <=? row then d ++ [[]] else d in
  let* rd := vec_at d1 row in
  let* sz := shr64 next row in
  vec_set d1 row (vec_resize rd sz zero_hash).

(** ram_forest.cpp:323-341 Add (with accumulator.cpp:135-183 inlined).  Always
    returns true if it returns. *)
Definition F_Add (f : forest) (ls : list leaf) : res forest :=
  let next := add64 (f_n f) (size ls) in
  let* d := foldM (F_resize_row next) (f_data f) (nseq 0 (NumRows next + 1)) in
  let* _ := assert_ (NumRows next <? size d) in
  let* f' := foldM F_add_leaf (set_data f d) ls in
  let* _ := assert_ (next =? f_n f') in
  let* _ := assert_ (N.of_nat (base.size (f_posmap f')) =? f_n f') in
  Ok f'.

(** accumulator.cpp:208-212: the swaps of one row; returns the positions pushed
    on dirty_nodes, in order. *)
Fixpoint F_do_swaps (f : forest) (ss : list swap) : res (forest * list N) :=
  match ss with
  | [] => Ok (f, [])
  | s :: ss' =>
      let* f1 := F_UpdatePositionMapForSubtreeSwap f (m_from s) (m_to s) in
      let* fd := F_SwapSubTrees f1 (m_from s) (m_to s) in
      let* r := F_do_swaps fd.1 ss' in
      Ok (r.1, if m_collapse s then r.2 else fd.2 :: r.2)
  end.

(** accumulator.cpp:216-222: rehash the dirt; [acc] is next_dirty_nodes. *)
Fixpoint F_rehash_dirt (f : forest) (st : N) (dirt acc : list N) : res (forest * list N) :=
  match dirt with
  | [] => Ok (f, acc)
  | d :: ds =>
      let* f1 := F_ReHash f st d in
      let* pp := Parent st d in
      let* acc' :=
        (match last acc with
         | Some b => if b =? pp then Ok acc
                     else let* p := F_Parent st d in
                          Ok (match p with Some x => acc ++ [x] | None => acc end)
         | None => let* p := F_Parent st d in
                   Ok (match p with Some x => acc ++ [x] | None => acc end)
         end) in
      F_rehash_dirt f1 st ds acc'
  end.

(** accumulator.cpp:203-225: the loop over rows ([k] rows remain). *)
Fixpoint F_remove_rows (k : nat) (row st : N) (swaps : list (list swap))
    (f : forest) (dirt : list N) : res (forest * list N) :=
  match k with
  | O => Ok (f, dirt)
  | S k' =>
      let* fd :=
        (if row <? size swaps then
           let* ss := vec_at swaps row in
           let* r := F_do_swaps f ss in
           Ok (r.1, dirt ++ r.2)
         else Ok (f, dirt)) in
      let* r := F_rehash_dirt fd.1 st fd.2 [] in
      F_remove_rows k' (row + 1) st swaps r.1 r.2
  end.

(** ram_forest.cpp:280-307 FinalizeRemove. *)
Definition F_FinalizeRemove (f : forest) (next : N) : res forest :=
  let* _ := assert_ (next <=? f_n f) in
  let* m := foldM (fun m pos => let* h := F_Read f pos in Ok (delete h m))
                  (f_posmap f) (nseq next (f_n f - next)) in
  let* _ := assert_ (N.of_nat (base.size m) =? next) in
  let* ps := RootPositionsFor (f_n f) next in
  let* rs := mapM_ (fun p => let* h := F_Read f p in Ok (RNode h next p)) ps in
  Ok (Forest (f_n f) (f_data f) rs m).

(** accumulator.cpp:185-234 Remove. *)
Definition F_Remove (f : forest) (targets : list N) : res (bool * forest) :=
  match targets with
  | [] => Ok (true, f)
  | _ =>
      let st := f_n f in
      let* sane := CheckTargetsSanity st targets in
      if negb sane then Ok (false, f) else
      let* swaps := Transform st targets in
      let* fd := F_remove_rows (N.to_nat (NumRows st)) 0 st swaps f [] in
      let* _ := assert_ (size fd.2 =? 0) in
      let next := sub64 (f_n fd.1) (size targets) in
      let* f1 := F_FinalizeRemove fd.1 next in
      Ok (true, set_n f1 next)
  end.

(** accumulator.cpp:24-30 Accumulator::Modify on a RamForest. *)
Definition F_Modify (f : forest) (ls : list leaf) (targets : list N) : res (bool * forest) :=
  let* r := F_Remove f targets in
  if negb r.1 then Ok (false, r.2) else
  let* f' := F_Add r.2 ls in
  Ok (true, f').

(** ram_forest.cpp:363-376 BuildUndoBatch: [None] is "return false". *)
Fixpoint F_deleted_hashes (f : forest) (prev : N) (ps : list N) : res (option (list hash)) :=
  match ps with
  | [] => Ok (Some [])
  | pos :: ps' =>
      let* oob := (if size (f_data f) =? 0 then Ok true else
                   let* r0 := vec_get (f_data f) 0 in Ok (size r0 <=? pos)) in
      if (oob : bool) then Ok None else
      let* h := F_ReadState f prev pos in
      let* r := F_deleted_hashes f prev ps' in
      Ok (match r with Some hs => Some (h :: hs) | None => None end)
  end.
Definition F_BuildUndoBatch (f : forest) (num_adds : N) (targets : list N) : res (option undo_batch) :=
  let prev := add64 (f_n f) (size targets) in
  let* _ := int_loop (size targets) in
  let* r := F_deleted_hashes f prev ((add64 (f_n f)) <$> nseq 0 (size targets)) in
  Ok (match r with
      | Some hs => Some (UndoBatch num_adds targets hs)
      | None => None
      end).

(** ram_forest.cpp:343-352 RamForest::Modify with an undo batch. *)
Definition F_ModifyUndo (f : forest) (ls : list leaf) (targets : list N)
    : res (bool * option undo_batch * forest) :=
  let* r := F_Remove f targets in
  if negb r.1 then Ok (false, None, r.2) else
  let* u := F_BuildUndoBatch r.2 (size ls) targets in
  match u with
  | None => Ok (false, None, r.2)
  | Some u =>
      let* f' := F_Add r.2 ls in
      Ok (true, Some u, f')
  end.

(** accumulator.cpp:236-271 Prove: [None] is "return false". *)
Fixpoint lookup_all (m : gmap N N) (hs : list hash) : option (list N) :=
  match hs with
  | [] => Some []
  | h :: hs' => match m !! h with
                | None => None
                | Some p => match lookup_all m hs' with
                            | Some ps => Some (p :: ps)
                            | None => None
                            end
                end
  end.
Definition F_Prove (f : forest) (target_hashes : list hash) : res (option batch_proof) :=
  match lookup_all (f_posmap f) target_hashes with
  | None => Ok None
  | Some targets =>
      let sorted := sortN targets in
      let* sane := CheckTargetsSanity (f_n f) sorted in
      if negb sane then Ok None else
      let* pp := ProofPositions (f_n f) sorted in
      let* _ := int_loop (size pp.1) in
      let* hs := mapM_ (F_Read f) pp.1 in
      Ok (Some (BatchProof targets hs))
  end.

(** ram_forest.cpp:310-321 Verify: only membership of the hashes is checked. *)
Definition F_Verify (f : forest) (p : batch_proof) (target_hashes : list hash) : bool :=
  forallb (fun h => match f_posmap f !! h with Some _ => true | None => false end) target_hashes.

(** ram_forest.cpp:354-361 RestoreRoots. *)
Definition F_RestoreRoots (f : forest) : res forest :=
  let* ps := RootPositions (f_n f) in
  let* rs := mapM_ (fun p => let* h := F_Read f p in Ok (RNode h (f_n f) p)) ps in
  Ok (set_roots f rs).

(** ram_forest.cpp:386-391: erase the added leaves; the flag is false for
    "return false", which leaves the map as far as it was erased. *)
Fixpoint undo_erase (f : forest) (m : gmap N N) (ps : list N) : res (bool * gmap N N) :=
  match ps with
  | [] => Ok (true, m)
  | i :: ps' =>
      let* h := F_Read f i in
      match m !! h with
      | None => Ok (false, m)
      | Some _ => undo_erase f (delete h m) ps'
      end
  end.

(** ram_forest.cpp:401-410: place the deleted hashes behind the last leaf:
    flag ("return false" if not set), row 0, posmap, dirt. *)
Fixpoint undo_place (n i : N) (row0 : list hash) (m : gmap N N) (dirt : list N)
    (hs : list hash) : res (bool * list hash * gmap N N * list N) :=
  match hs with
  | [] => Ok (true, row0, m, dirt)
  | h :: hs' =>
      let pos := add64 n i in
      if size row0 <=? pos then Ok (false, row0, m, dirt) else
      let* row0' := vec_set row0 pos h in
      match m !! h with
      | Some _ => Ok (false, row0', m, dirt)
      | None => undo_place n (i + 1) row0' (<[h := pos]> m) (dirt ++ [pos]) hs'
      end
  end.

(** ram_forest.cpp:414-430: apply the swaps (given in the order of execution). *)
Fixpoint undo_swaps_loop (f : forest) (dirt : list N) (ss : list swap) : res (forest * list N) :=
  match ss with
  | [] => Ok (f, dirt)
  | s :: ss' =>
      let range := if m_is_range_swap s then m_range s else 1 in
      let dirt' := dirt ++ concat ((λ i, [add64 (m_from s) i; add64 (m_to s) i]) <$> nseq 0 range) in
      let* f1 := F_UpdatePositionMapForRange f (m_from s) (m_to s) range in
      let* f2 := F_SwapRange f1 (m_from s) (m_to s) range in
      undo_swaps_loop f2 dirt' ss'
  end.

(** ram_forest.cpp:438-449: the first row of dirt; [acc] is [dirt]. *)
Fixpoint undo_first_dirt (st : N) (ps acc : list N) : res (list N) :=
  match ps with
  | [] => Ok acc
  | pos :: ps' =>
      let* pp := Parent st pos in
      let* hr := HasRoot st 0 in
      let* skip := (if (hr : bool) then let* rp := RootPosition st 0 in Ok (rp <=? pos) else Ok false) in
      if (skip : bool) then undo_first_dirt st ps' acc else
      match last acc with
      | Some b => if b =? pp then undo_first_dirt st ps' acc
                  else undo_first_dirt st ps' (acc ++ [pp])
      | None => undo_first_dirt st ps' (acc ++ [pp])
      end
  end.

(** ram_forest.cpp:455-461: rehash one row of dirt; [acc] is next_dirt. *)
Fixpoint undo_rehash (f : forest) (st : N) (dirt acc : list N) : res (forest * list N) :=
  match dirt with
  | [] => Ok (f, acc)
  | d :: ds =>
      let* f1 := F_ReHash f st d in
      let* p := F_Parent st d in
      let acc' := match p with
                  | None => acc
                  | Some x => match last acc with
                              | Some b => if b =? x then acc else acc ++ [x]
                              | None => acc ++ [x]
                              end
                  end in
      undo_rehash f1 st ds acc'
  end.

(** ram_forest.cpp:451-463: the loop over rows r = 1 .. NumRows. *)
Fixpoint undo_rows (k : nat) (r st : N) (f : forest) (dirt : list N) : res forest :=
  match k with
  | O => Ok f
  | S k' =>
      let* rd := vec_get (f_data f) r in
      let* sz := shr64 (f_n f) r in
      let* d := vec_set (f_data f) r (vec_resize rd sz zero_hash) in
      let* x := undo_rehash (set_data f d) st dirt [] in
      undo_rows k' (r + 1) st x.1 x.2
  end.

(** Removal of duplicates: the effect of inserting into the unordered_set
    [dirt_set] (ram_forest.cpp:399, 408, 424-425) as far as its sorted content
    is concerned. *)
Fixpoint dedup_sorted (l : list N) : list N :=
  match l with
  | x :: ((y :: _) as l') => if x =? y then dedup_sorted l' else x :: dedup_sorted l'
  | _ => l
  end.

(** ram_forest.cpp:378-482 Undo. *)
Definition F_Undo (f : forest) (u : undo_batch) : res (bool * forest) :=
  if size (f_data f) =? 0 then Ok (true, f) else
  let adds := m_num_additions u in
  let prev := sub64 (add64 (f_n f) (size (m_deleted_positions u))) adds in
  let* swaps := UndoTransform prev (m_deleted_positions u) in
  let start := sub64 (f_n f) adds in
  let* e := undo_erase f (f_posmap f) (nseq start (f_n f - start)) in
  if negb e.1 then Ok (false, set_posmap f e.2) else
  let* row0 := vec_get (f_data f) 0 in
  let* _ := int_loop (size (m_deleted_hashes u)) in
  let* pl := undo_place start 0 (vec_resize row0 prev zero_hash) e.2 [] (m_deleted_hashes u) in
  let '(placed, row0', m', dirt) := pl in
  let* d := vec_set (f_data f) 0 row0' in
  if negb placed then Ok (false, Forest start d (f_roots f) m') else
  let f1 := Forest prev d (f_roots f) m' in
  let* fs := undo_swaps_loop f1 dirt (rev swaps) in
  let dirt_list := dedup_sorted (sortN fs.2) in
  let* dirt0 := undo_first_dirt prev dirt_list [] in
  let* f2 := undo_rows (N.to_nat (NumRows prev)) 1 prev fs.1 dirt0 in
  let* f3 := F_RestoreRoots f2 in
  Ok (true, f3).

(** ram_forest.cpp:484-488 GetLeaf. *)
Definition F_GetLeaf (f : forest) (pos : N) : res hash :=
  let* _ := assert_ (pos <? f_n f) in F_Read f pos.

(** ram_forest.cpp:490-498 operator==. *)
Definition F_eqb (f g : forest) : bool :=
  (f_n f =? f_n g) && vec_eqb (F_Roots f) (F_Roots g) &&
  bool_decide (f_posmap f = f_posmap g).

(** accumulator.cpp:70-80 ComparePositionMap.  [es] are the entries of m_posmap in the
    order of the iteration, which is unspecified.  Dereferencing [end()] is undefined. *)
Fixpoint ComparePositionMap (es : list (N * N)) (other : gmap N N) : res bool :=
  match es with
  | [] => Ok true
  | (h, pos) :: es' =>
      match other !! h with
      | None => UB
      | Some p => if negb (p =? pos) then Ok false else ComparePositionMap es' other
      end
  end.

(** ** The file (list of bytes) *)

(** ram_forest.cpp:174-184: the sequence of write() calls for the rows.
    [int j] overflows when a row has 2^31 or more hashes. *)
Fixpoint commit_rows (k : nat) (i num : N) (d : list (list hash)) : res (list (list N)) :=
  let* rd := vec_get d i in
  let* _ := assert_ (num <=? size rd) in
  let* _ := int_loop num in
  let* hs := mapM_ (vec_get rd) (nseq 0 num) in
  match k with
  | O => Ok (hash_bytes <$> hs)
  | S k' => let* rest := commit_rows k' (i + 1) (N.shiftr num 1) d in
            Ok ((hash_bytes <$> hs) ++ rest)
  end.

(** ram_forest.cpp:164-185 Commit: the blocks it writes, in order. *)
Definition F_commit_blocks (f : forest) : res (list (list N)) :=
  let* bs := commit_rows (N.to_nat (NumRows (f_n f))) 0 (f_n f) (f_data f) in
  Ok (WriteBE64 (f_n f) :: bs).

(** Writing [bs] from the start of a file with content [old] (seekg(0), no
    truncation). *)
Definition overwrite (old bs : list N) : list N := bs ++ drop (length bs) old.
Definition F_Commit (f : forest) (old : list N) : res (list N) :=
  let* bs := F_commit_blocks f in Ok (overwrite old (concat bs)).

(** ram_forest.cpp:142-152: read [num] hashes into row [row]. *)
Fixpoint restore_row (fuel : nat) (bytes : list N) (off num pos : N) (leaf_row : bool)
    (m : gmap N N) : res (list hash * gmap N N) :=
  if num =? 0 then Ok ([], m) else
  match fuel with
  | O => NoFuel
  | S k =>
      let* h := read_hash bytes off in
      let m' := if leaf_row then <[h := pos]> m else m in
      let* r := restore_row k bytes (off + 32) (num - 1) (add64 pos 1) leaf_row m' in
      Ok (h :: r.1, r.2)
  end.

(** ram_forest.cpp:140-157: the loop over rows.  A short read leaves the local
    [Hash] uninitialised: undefined. *)
Fixpoint restore_rows (fuel : nat) (bytes : list N) (n off row num : N)
    (d : list (list hash)) (m : gmap N N) : res (list (list hash) * gmap N N) :=
  if num =? 0 then Ok (d, m) else
  match fuel with
  | O => NoFuel
  | S k =>
      let* pos := RowOffsetRow n row in
      let* r := restore_row (S (length bytes)) bytes off num pos (num =? n) m in
      let* rd := vec_get d row in
      let* d' := vec_set d row (rd ++ r.1) in
      restore_rows k bytes n (off + 32 * num) (row + 1) (N.shiftr num 1) (d' ++ [[]]) r.2
  end.

(** ram_forest.cpp:98-115 the file constructor and 126-162 Restore, for an
    existing file with content [bytes]. *)
Definition F_Restore (bytes : list N) : res forest :=
  let* n := ReadBE64 bytes 0 in
  let* r := restore_rows 65 bytes n 8 0 n [[]] ∅ in
  F_RestoreRoots (Forest n r.1 [] r.2).

(** ram_forest.cpp:98-115 for a file that does not exist: the forest and the
    new file. *)
Definition F_OpenNew : res (forest * list N) :=
  let f := RamForest_new 0 in
  let* b := F_Commit f [] in Ok (f, b).

End WithHash.
