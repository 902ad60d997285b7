(** * PollardModel: src/pollard.cpp and the parts of src/accumulator.cpp that
    Pollard inherits

    The internal nodes live in an explicit heap; a [NodePtr<InternalNode>] is an
    [option loc] ([None] is nullptr) and dereferencing nullptr is [UB].  Nodes
    are never removed from the heap: whether an unreachable node has been freed
    is not observable except through m_remember.use_count(), which is computed
    from the nodes reachable from the roots.

    Virtual calls of Accumulator are resolved to the Pollard methods. *)
From Verif Require Import Base StateModel CodecModel ForestModel.

Definition loc := N.

(** pollard.cpp:22-61 class InternalNode. *)
Record inode := INode { i_hash : hash; i_l : option loc; i_r : option loc }.
Definition heap := gmap N inode.

(** The node m_remember points to (pollard.h:19, pollard.cpp:125): location 0. *)
Definition rem : loc := 0.

(** pollard.cpp:63-120 class Node, for the roots.  For a root m_node = m_sibling
    and m_parent = nullptr throughout (pollard.cpp:140, 264, 297, 331);
    m_num_leaves is never read by Pollard and left out.  The four bits of
    m_verification_flag (pollard.cpp:75-82) are separate booleans. *)
Record vflag := VFlag { v_valid : bool; v_target : bool; v_cached : bool; v_sibcached : bool }.
Definition vflag0 : vflag := VFlag false false false false.
Record proot := PRoot { pr_node : option loc; pr_pos : N; pr_flag : vflag }.

Record pollard := Pollard {
  p_n : N;
  p_heap : heap;
  p_next : loc;          (* next fresh location *)
  p_roots : list proot;
  p_posmap : gmap N N }.

Definition p_set_n (p : pollard) (n : N) : pollard :=
  Pollard n (p_heap p) (p_next p) (p_roots p) (p_posmap p).
Definition p_set_heap (p : pollard) (h : heap) : pollard :=
  Pollard (p_n p) h (p_next p) (p_roots p) (p_posmap p).
Definition p_set_roots (p : pollard) (r : list proot) : pollard :=
  Pollard (p_n p) (p_heap p) (p_next p) r (p_posmap p).
Definition p_set_posmap (p : pollard) (m : gmap N N) : pollard :=
  Pollard (p_n p) (p_heap p) (p_next p) (p_roots p) m.

(** [*ptr]. *)
Definition deref (h : heap) (p : option loc) : res (loc * inode) :=
  match p with
  | None => UB
  | Some l => match h !! l with Some i => Ok (l, i) | None => UB end
  end.

(** [ptr->m_nieces[lr]] for lr = 0 (false) or 1 (true). *)
Definition niece (i : inode) (lr : bool) : option loc := if lr then i_r i else i_l i.
Definition set_niece (i : inode) (lr : bool) (v : option loc) : inode :=
  if lr then INode (i_hash i) (i_l i) v else INode (i_hash i) v (i_r i).
Definition set_hash (i : inode) (x : hash) : inode := INode x (i_l i) (i_r i).

(** MakeNodePtr<InternalNode> (accumulator.h:126-135). *)
Definition alloc (p : pollard) (i : inode) : pollard * loc :=
  (Pollard (p_n p) (<[p_next p := i]> (p_heap p)) (p_next p + 1) (p_roots p) (p_posmap p),
   p_next p).

(** pollard.cpp:123-126 Pollard(num_leaves). *)
Definition Pollard_new (num_leaves : N) : pollard :=
  Pollard num_leaves {[ rem := INode zero_hash None None ]} 1 [] ∅.

(** pollard.cpp:128-143 Pollard(roots, num_leaves). *)
Definition Pollard_restore (roots : list hash) (num_leaves : N) : res pollard :=
  let p := Pollard_new num_leaves in
  let* _ := assert_ (size roots =? NumRoots num_leaves) in
  let* ps := RootPositions num_leaves in
  let* _ := assert_ (size ps =? size roots) in
  foldM (fun p i =>
           let* h := vec_at roots i in
           let* pos := vec_at ps i in
           let '(p', l) := alloc p (INode h None None) in
           Ok (p_set_roots p' (p_roots p' ++ [PRoot (Some l) pos vflag0])))
        p (nseq 0 (size roots)).

(** A [NodePtr<Accumulator::Node>] path as built by ReadSiblings
    (pollard.cpp:199): the list of (m_node, m_sibling, m_position), the node
    itself first, then its m_parent chain; nullptr is [].  These wrapper
    objects are never mutated. *)
Record pnode := PNode { pn_node : option loc; pn_sib : option loc; pn_pos : N }.
Definition path := list pnode.

(** pollard.cpp:193-213: the traversal loop; [k] steps remain, i.e. the next
    path bit is number [k-1].  (path_bits >> (path_length - 1 - i) with a count
    of 64 or more is undefined.) *)
Fixpoint read_loop (k : nat) (h : heap) (n bits : N) (node sib : option loc) (pos : N)
    (rp : path) (record_path : bool) : res (option loc * option loc * path) :=
  match k with
  | O => Ok (node, sib, rp)
  | S k' =>
      let* s := shr64 bits (N.of_nat k') in
      let lr := N.odd s in
      let lr_sib := negb lr in
      let rp' := if record_path then PNode node sib pos :: rp else rp in
      match sib with
      | None => Ok (None, None, rp')
      | Some _ =>
          let* si := deref h sib in
          let* pos' := Child n pos (if lr_sib then 1 else 0) in
          read_loop k' h n bits (niece si.2 lr_sib) (niece si.2 lr) pos' rp' record_path
      end
  end.

(** pollard.cpp:174-214 ReadSiblings. *)
Definition P_ReadSiblings (p : pollard) (pos : N) (record_path : bool)
    : res (option loc * option loc * path) :=
  let* pt := Path (p_n p) pos in
  let '(tree, path_length, path_bits) := pt in
  let* rps := RootPositions (p_n p) in
  let* node_pos := vec_get rps tree in
  let* root := vec_get (p_roots p) tree in
  let node := pr_node root in
  read_loop (N.to_nat path_length) (p_heap p) (p_n p) path_bits node node node_pos [] record_path.

(** pollard.cpp:150-158 Read. *)
Definition P_Read (p : pollard) (pos : N) : res (option hash) :=
  let* r := P_ReadSiblings p pos false in
  match r.1.1 with
  | None => Ok None
  | Some l => let* i := deref (p_heap p) (Some l) in Ok (Some (i_hash i.2))
  end.

(** pollard.cpp:160-172 ReadLeafRange. *)
Fixpoint p_read_all (p : pollard) (ps : list N) : res (list hash) :=
  match ps with
  | [] => Ok []
  | x :: ps' =>
      let* h := P_Read p x in
      let* r := p_read_all p ps' in
      Ok (match h with Some v => v :: r | None => r end)
  end.
Definition P_ReadLeafRange (p : pollard) (pos range : N) : res (list hash) :=
  p_read_all p (nseq pos range).

(** pollard.cpp:228-235 hook_in_sibling: the new pollard and sibling pointer. *)
Definition hook_in_sibling (p : pollard) (rp : path) (sib : option loc) (pos : N)
    : res (pollard * option loc) :=
  match sib with
  | Some _ => Ok (p, sib)
  | None =>
      let lr_sib := negb (N.odd pos) in
      let '(p1, l) := alloc p (INode zero_hash None None) in
      match rp with
      | [] => UB
      | top :: _ =>
          let* si := deref (p_heap p1) (pn_sib top) in
          Ok (p_set_heap p1 (<[si.1 := set_niece si.2 lr_sib (Some l)]> (p_heap p1)), Some l)
      end
  end.

(** [std::swap(a->m_hash, b->m_hash)] and [std::swap(a->m_nieces, b->m_nieces)]. *)
Definition swap_hash (h : heap) (a b : option loc) : res heap :=
  let* x := deref h a in
  let* y := deref h b in
  let h1 := <[x.1 := set_hash x.2 (i_hash y.2)]> h in
  let* y1 := deref h1 b in
  Ok (<[y1.1 := set_hash y1.2 (i_hash x.2)]> h1).
Definition swap_nieces (h : heap) (a b : option loc) : res heap :=
  let* x := deref h a in
  let* y := deref h b in
  let h1 := <[x.1 := INode (i_hash x.2) (i_l y.2) (i_r y.2)]> h in
  let* y1 := deref h1 b in
  Ok (<[y1.1 := INode (i_hash y1.2) (i_l x.2) (i_r x.2)]> h1).

(** pollard.cpp:222-255 SwapSubTrees (CHECK_SAFE compiled out). *)
Definition P_SwapSubTrees (p : pollard) (from to : N) : res (pollard * path) :=
  let* r := P_ReadSiblings p from true in
  let '(node_from, sib_from0, rp) := r in
  let* hk := hook_in_sibling p rp sib_from0 from in
  let '(p1, sib_from) := hk in
  let* t :=
    (if Sibling from =? to then Ok (p1, sib_from, node_from, rp)
     else
       let* r2 := P_ReadSiblings p1 to true in
       let '(node_to, sib_to0, rp2) := r2 in
       let* hk2 := hook_in_sibling p1 rp2 sib_to0 to in
       Ok (hk2.1, node_to, hk2.2, rp2)) in
  let '(p2, node_to, sib_to, rp') := t in
  let* h1 := swap_hash (p_heap p2) node_to node_from in
  let* h2 := swap_nieces h1 sib_to sib_from in
  Ok (p_set_heap p2 h2, rp').

(** pollard.cpp:793-796 DeadEnd, 782-791 Prune, 766-780 Chop*. *)
Definition is_null (p : option loc) : bool := match p with None => true | Some _ => false end.
Definition dead_end (i : inode) : bool := is_null (i_l i) && is_null (i_r i).
Definition prune_ptr (h : heap) (p : option loc) : res (option loc) :=
  match p with
  | None => Ok None
  | Some l => let* i := deref h (Some l) in Ok (if dead_end i.2 then None else Some l)
  end.
(** The first assignment of Prune (line 785) replaces a niece of the node
    itself; the second test reads the other niece, which is a different object. *)
Definition prune_node (h : heap) (l : loc) : res heap :=
  let* i := deref h (Some l) in
  let* a := prune_ptr h (i_l i.2) in
  let* b := prune_ptr h (i_r i.2) in
  Ok (<[l := INode (i_hash i.2) a b]> h).
Definition chop_node (h : heap) (l : option loc) : res heap :=
  let* i := deref h l in Ok (<[i.1 := INode (i_hash i.2) None None]> h).
Definition chop_side (h : heap) (l : option loc) (lr : bool) : res heap :=
  let* i := deref h l in Ok (<[i.1 := set_niece i.2 lr None]> h).

(** pollard.cpp:257-275 NewLeaf. *)
Definition P_NewLeaf (p : pollard) (l : leaf) : res pollard :=
  let '(p1, x) := alloc p (INode l.1 (if l.2 then Some rem else None) None) in
  let p2 := p_set_roots p1 (p_roots p1 ++ [PRoot (Some x) (p_n p) vflag0]) in
  Ok (if l.2 then p_set_posmap p2 (<[l.1 := p_n p]> (p_posmap p2)) else p2).

(** Comparison of a niece with m_remember. *)
Definition is_rem (p : option loc) : bool := match p with Some l => l =? rem | None => false end.

(** pollard.cpp:277-302 MergeRoot. *)
Definition P_MergeRoot (p : pollard) (parent_pos : N) (parent_hash : hash) : res pollard :=
  let* rt := vec_back (p_roots p) in
  let* r1 := vec_pop (p_roots p) in
  let* lt := vec_back r1 in
  let* r2 := vec_pop r1 in
  let* h1 := swap_nieces (p_heap p) (pr_node lt) (pr_node rt) in
  let '(p1, x) := alloc (p_set_heap p h1) (INode parent_hash (pr_node lt) (pr_node rt)) in
  let* il := deref (p_heap p1) (pr_node lt) in
  let* ir := deref (p_heap p1) (pr_node rt) in
  let* h2 := (if negb (is_rem (i_l il.2)) && negb (is_rem (i_l ir.2))
              then prune_node (p_heap p1) x else Ok (p_heap p1)) in
  Ok (p_set_roots (p_set_heap p1 h2) (r2 ++ [PRoot (Some x) parent_pos vflag0])).

(** accumulator.cpp:97-133 on a Pollard. *)
Definition P_UpdatePositionMapForRange (p : pollard) (from to range : N) : res pollard :=
  if (N.of_nat (base.size (p_posmap p)) =? 0) then Ok p else
  let* from_range := P_ReadLeafRange p from range in
  let* to_range := P_ReadLeafRange p to range in
  let m1 := shift_positions (p_posmap p) from_range (sub64 to from) in
  let m2 := shift_positions m1 to_range (sub64 from to) in
  Ok (p_set_posmap p m2).
Definition P_UpdatePositionMapForSubtreeSwap (p : pollard) (from to : N) : res pollard :=
  let* row := DetectRow (p_n p) from in
  let* start_from := LeftDescendant (p_n p) from row in
  let* start_to := LeftDescendant (p_n p) to row in
  let* range := shl64 1 row in
  P_UpdatePositionMapForRange p start_from start_to range.

(** accumulator.cpp:32-40 Roots with pollard.cpp:720-723 GetHash. *)
Definition P_GetHash (h : heap) (l : option loc) : res hash :=
  let* i := deref h l in Ok (i_hash i.2).
Definition P_Roots (p : pollard) : res (list hash) :=
  mapM_ (fun r => P_GetHash (p_heap p) (pr_node r)) (p_roots p).

(** pollard.cpp:304-348 FinalizeRemove.  Roots are selected from the last to
    the first. *)
Definition p_select_root (p : pollard) (pos : N) : res (pollard * proot) :=
  let* r := P_ReadSiblings p pos false in
  let '(node, sib, _) := r in
  let* i := deref (p_heap p) node in
  match sib with
  | Some _ =>
      let* s := deref (p_heap p) sib in
      let h1 := <[i.1 := set_niece i.2 false (i_l s.2)]> (p_heap p) in
      (* line 337 reads m_nieces[1] of the sibling again; if the sibling is the
         node itself its right niece is unchanged *)
      let* i1 := deref h1 node in
      Ok (p_set_heap p (<[i.1 := set_niece i1.2 true (i_r s.2)]> h1), PRoot node pos vflag0)
  | None =>
      let* h1 := chop_node (p_heap p) node in
      Ok (p_set_heap p h1, PRoot node pos vflag0)
  end.
Fixpoint p_select_roots (p : pollard) (rev_ps : list N) (acc : list proot) : res (pollard * list proot) :=
  match rev_ps with
  | [] => Ok (p, acc)
  | pos :: ps =>
      let* r := p_select_root p pos in
      p_select_roots r.1 ps (r.2 :: acc)
  end.
Definition P_FinalizeRemove (p : pollard) (next : N) : res pollard :=
  let* m := foldM (fun m pos => let* h := P_Read p pos in
                                Ok (match h with Some v => delete v m | None => m end))
                  (p_posmap p) (nseq next (p_n p - next)) in
  let* ps := RootPositionsFor (p_n p) next in
  let* r := p_select_roots (p_set_posmap p m) (rev ps) [] in
  Ok (p_set_roots r.1 r.2).

(** Traversal of the node structure below [l] (pollard.cpp:358-362), as the list
    of visited locations; m_remember is not entered.  The structure is at most
    64 rows deep. *)
Fixpoint reach (fuel : nat) (h : heap) (p : option loc) : list loc :=
  match fuel with
  | O => []
  | S k =>
      match p with
      | None => []
      | Some l =>
          if l =? rem then [] else
          match h !! l with
          | None => []
          | Some i => l :: reach k h (i_l i) ++ reach k h (i_r i)
          end
      end
  end.
Definition p_reach (p : pollard) : list loc :=
  concat ((λ r, reach 70 (p_heap p) (pr_node r)) <$> p_roots p).

(** pollard.cpp:364-371 CountNodes. *)
Definition P_CountNodes (p : pollard) : N := w64 (size (p_reach p)).

(** m_remember.use_count() - 1: the number of niece pointers of live nodes that
    point to m_remember.  (pollard.h:60 NumCachedLeaves.) *)
Definition rem_refs (h : heap) (l : loc) : N :=
  match h !! l with
  | None => 0
  | Some i => (if is_rem (i_l i) then 1 else 0) + (if is_rem (i_r i) then 1 else 0)
  end.
Definition P_NumCachedLeaves (p : pollard) : N :=
  foldr (fun l a => rem_refs (p_heap p) l + a) 0 (elements (list_to_set (p_reach p) : gset N)).

(** pollard.cpp:350-356 Prune. *)
Definition P_Prune (p : pollard) : res pollard :=
  let* h := foldM (fun h r => chop_node h (pr_node r)) (p_heap p) (p_roots p) in
  let p' := p_set_heap p h in
  let* _ := assert_ (P_NumCachedLeaves p' =? 0) in
  Ok p'.

Section WithHash.
Context (H : hash -> hash -> hash).

(** pollard.cpp:725-735 Node::ReHash. *)
Definition P_ReHash (p : pollard) (x : pnode) : res pollard :=
  let* s := deref (p_heap p) (pn_sib x) in
  if is_null (i_l s.2) || is_null (i_r s.2) then Ok p else
  let* a := deref (p_heap p) (i_l s.2) in
  let* b := deref (p_heap p) (i_r s.2) in
  let* i := deref (p_heap p) (pn_node x) in
  let h1 := <[i.1 := set_hash i.2 (H (i_hash a.2) (i_hash b.2))]> (p_heap p) in
  let* h2 := prune_node h1 s.1 in
  Ok (p_set_heap p h2).

(** accumulator.cpp:149-161 on a Pollard (see ForestModel.F_add_merge). *)
Fixpoint P_add_merge (fuel : nat) (p : pollard) (st row : N) (root : option N)
    (nh : hash) (npos : N) : res pollard :=
  let* hr := HasRoot st row in
  if (hr : bool) then
    match fuel with
    | O => NoFuel
    | S k =>
        let* rnd := (match root with
                     | Some i => vec_get (p_roots p) i
                     | None => UB
                     end) in
        let* rh := P_GetHash (p_heap p) (pr_node rnd) in
        let* pp := Parent st npos in
        let* p' := P_MergeRoot p pp (H rh nh) in
        let* b := vec_back (p_roots p') in
        let* bh := P_GetHash (p_heap p') (pr_node b) in
        P_add_merge k p' st (row + 1)
          (match root with Some i => if i =? 0 then None else Some (i - 1) | None => None end)
          bh (pr_pos b)
    end
  else Ok p.

Definition set_pr_pos (r : proot) (pos : N) : proot := PRoot (pr_node r) pos (pr_flag r).

(** accumulator.cpp:149-180 on a Pollard. *)
Definition P_add_leaf (p : pollard) (l : leaf) : res pollard :=
  let st := p_n p in
  let root := (if size (p_roots p) =? 0 then None else Some (size (p_roots p) - 1)) in
  let* p1 := P_NewLeaf p l in
  let* p2 := P_add_merge 65 p1 st 0 root l.1 (p_n p) in
  let p3 := p_set_n p2 (add64 (p_n p2) 1) in
  let st' := p_n p3 in
  if (NumRows st =? 0) || (NumRows st =? NumRows st') then Ok p3 else
  let* _ := assert_ (2 <=? size (p_roots p3)) in
  let* p1 := RootPosition st' 0 in
  let* p0 := RootPosition st' (NumRows st' - 1) in
  let* r1 := vec_get (p_roots p3) 1 in
  let* rs1 := vec_set (p_roots p3) 1 (set_pr_pos r1 p1) in
  let* r0 := vec_get rs1 0 in
  let* rs2 := vec_set rs1 0 (set_pr_pos r0 p0) in
  Ok (p_set_roots p3 rs2).

(** accumulator.cpp:135-183 Add. *)
Definition P_Add (p : pollard) (ls : list leaf) : res pollard := foldM P_add_leaf p ls.

(** accumulator.cpp:208-212. *)
Fixpoint P_do_swaps (p : pollard) (ss : list swap) : res (pollard * list path) :=
  match ss with
  | [] => Ok (p, [])
  | s :: ss' =>
      let* p1 := P_UpdatePositionMapForSubtreeSwap p (m_from s) (m_to s) in
      let* pd := P_SwapSubTrees p1 (m_from s) (m_to s) in
      let* r := P_do_swaps pd.1 ss' in
      Ok (r.1, if m_collapse s then r.2 else pd.2 :: r.2)
  end.

(** accumulator.cpp:216-222.  An empty path is a null dirty node; calling
    ReHash on it is undefined. *)
Fixpoint P_rehash_dirt (p : pollard) (st : N) (dirt acc : list path) : res (pollard * list path) :=
  match dirt with
  | [] => Ok (p, acc)
  | d :: ds =>
      match d with
      | [] => UB
      | x :: parent =>
          let* p1 := P_ReHash p x in
          let* pp := Parent st (pn_pos x) in
          let push := match parent with [] => acc | _ => acc ++ [parent] end in
          let* acc' :=
            (match last acc with
             | Some (y :: _) => Ok (if pn_pos y =? pp then acc else push)
             | Some [] => UB
             | None => Ok push
             end) in
          P_rehash_dirt p1 st ds acc'
      end
  end.

(** accumulator.cpp:203-225. *)
Fixpoint P_remove_rows (k : nat) (row st : N) (swaps : list (list swap))
    (p : pollard) (dirt : list path) : res (pollard * list path) :=
  match k with
  | O => Ok (p, dirt)
  | S k' =>
      let* pd :=
        (if row <? size swaps then
           let* ss := vec_at swaps row in
           let* r := P_do_swaps p ss in
           Ok (r.1, dirt ++ r.2)
         else Ok (p, dirt)) in
      let* r := P_rehash_dirt pd.1 st pd.2 [] in
      P_remove_rows k' (row + 1) st swaps r.1 r.2
  end.

(** accumulator.cpp:185-234 Remove on a Pollard. *)
Definition P_Remove (p : pollard) (targets : list N) : res (bool * pollard) :=
  match targets with
  | [] => Ok (true, p)
  | _ =>
      let st := p_n p in
      let* sane := CheckTargetsSanity st targets in
      if negb sane then Ok (false, p) else
      let* swaps := Transform st targets in
      let* pd := P_remove_rows (N.to_nat (NumRows st)) 0 st swaps p [] in
      let* _ := assert_ (size pd.2 =? 0) in
      let next := sub64 (p_n pd.1) (size targets) in
      let* p1 := P_FinalizeRemove pd.1 next in
      Ok (true, p_set_n p1 next)
  end.

(** accumulator.cpp:24-30 Modify on a Pollard. *)
Definition P_Modify (p : pollard) (ls : list leaf) (targets : list N) : res (bool * pollard) :=
  let* r := P_Remove p targets in
  if negb r.1 then Ok (false, r.2) else
  let* p' := P_Add r.2 ls in
  Ok (true, p').

(** accumulator.cpp:236-271 Prove on a Pollard. *)
Fixpoint p_read_hashes (p : pollard) (ps : list N) : res (option (list hash)) :=
  match ps with
  | [] => Ok (Some [])
  | x :: ps' =>
      let* h := P_Read p x in
      match h with
      | None => Ok None
      | Some v =>
          let* r := p_read_hashes p ps' in
          Ok (match r with Some vs => Some (v :: vs) | None => None end)
      end
  end.
Definition P_Prove (p : pollard) (target_hashes : list hash) : res (option batch_proof) :=
  match lookup_all (p_posmap p) target_hashes with
  | None => Ok None
  | Some targets =>
      let sorted := sortN targets in
      let* sane := CheckTargetsSanity (p_n p) sorted in
      if negb sane then Ok None else
      let* pp := ProofPositions (p_n p) sorted in
      let* _ := int_loop (size pp.1) in
      let* hs := p_read_hashes p pp.1 in
      Ok (match hs with Some hs => Some (BatchProof targets hs) | None => None end)
  end.

(** ** Verification

    The wrapper objects (class Node) of a proof tree are mutable and shared, so
    they live in a table; a pointer to one is its index [wid].  The first
    entries of the table are the root wrappers m_roots. *)
Record wnode := WNode {
  w_node : option loc;
  w_sib : option loc;
  w_parent : option N;
  w_pos : N;
  w_flag : vflag }.
Definition wtab := list wnode.

Definition set_w_pos (w : wnode) (pos : N) : wnode :=
  WNode (w_node w) (w_sib w) (w_parent w) pos (w_flag w).
Definition set_w_flag (w : wnode) (fl : vflag) : wnode :=
  WNode (w_node w) (w_sib w) (w_parent w) (w_pos w) fl.

Definition root_wrapper (r : proot) : wnode :=
  WNode (pr_node r) (pr_node r) None (pr_pos r) (pr_flag r).

(** Write the root wrappers back into m_roots. *)
Definition roots_of_tab (t : wtab) (k : nat) : list proot :=
  (λ w, PRoot (w_node w) (w_pos w) (w_flag w)) <$> take k t.

(** pollard.cpp:373-405 InitChildrenOfComputed for the wrapper [x]: the new
    state, the table, left and right child and the two recover flags. *)
Definition P_InitChildren (p : pollard) (t : wtab) (x : N)
    : res (pollard * wtab * N * N * bool * bool) :=
  let* w := vec_get t x in
  let* s0 := deref (p_heap p) (w_sib w) in
  let recover_left := is_null (i_l s0.2) in
  let p1 := if recover_left then
              let '(q, l) := alloc p (INode zero_hash None None) in
              p_set_heap q (<[s0.1 := set_niece s0.2 false (Some l)]> (p_heap q))
            else p in
  let* s1 := deref (p_heap p1) (w_sib w) in
  let recover_right := is_null (i_r s1.2) in
  let p2 := if recover_right then
              let '(q, l) := alloc p1 (INode zero_hash None None) in
              p_set_heap q (<[s1.1 := set_niece s1.2 true (Some l)]> (p_heap q))
            else p1 in
  let* s2 := deref (p_heap p2) (w_sib w) in
  let* lpos := LeftChild (p_n p) (w_pos w) in
  let* rpos := Child (p_n p) (w_pos w) 1 in
  let lw := WNode (i_l s2.2) (i_r s2.2) (Some x) lpos
                  (VFlag false false (negb recover_left) (negb recover_right)) in
  let rw := WNode (i_r s2.2) (i_l s2.2) (Some x) rpos
                  (VFlag false false (negb recover_right) (negb recover_left)) in
  Ok (p2, t ++ [lw; rw], size t, size t + 1, recover_left, recover_right).

(** The chop kinds of pollard.cpp:18-20. *)
Inductive chop := ChopL | ChopR | ChopB.

(** The mutable variables of CreateProofTree: pollard, wrapper table, recovery
    list, and the three reverse iterators as the lists still to be visited. *)
Record cstate := CState {
  c_p : pollard;
  c_t : wtab;
  c_rec : list (N * chop);
  c_computed : list N;
  c_proofpos : list N;
  c_hashes : list hash }.

Definition hd_is (l : list N) (x : N) : bool := match l with y :: _ => y =? x | [] => false end.

(** pollard.cpp:448-532: one node of the current row.  Returns the state and
    what is prepended to next_row, or [None] for "return false". *)
Definition create_node (n : N) (c : cstate) (x : N) : res (cstate * option (list N)) :=
  let* w := vec_get (c_t c) x in
  let is_leaf := w_pos w <? n in
  let is_computed := hd_is (c_computed c) (w_pos w) in
  let is_proof := hd_is (c_proofpos c) (w_pos w) in
  let front := if is_leaf then [x] else [] in
  let* _ := assert_ (negb (is_proof && is_computed)) in
  let* _ := assert_ (is_proof || is_computed) in
  if is_computed then
    let fl := w_flag w in
    let* t1 := vec_set (c_t c) x
                 (set_w_flag w (VFlag (v_valid fl) true (v_cached fl) (v_sibcached fl))) in
    let c1 := CState (c_p c) t1 (c_rec c) (tl (c_computed c)) (c_proofpos c) (c_hashes c) in
    if is_leaf then Ok (c1, Some front) else
    let* ic := P_InitChildren (c_p c1) t1 x in
    let '(p2, t2, lc, rc, rl, rr) := ic in
    let rec' := if rl && rr then c_rec c1 ++ [(x, ChopB)]
                else if rl then c_rec c1 ++ [(x, ChopL)]
                else if rr then c_rec c1 ++ [(x, ChopR)]
                else c_rec c1 in
    Ok (CState p2 t2 rec' (c_computed c1) (c_proofpos c1) (c_hashes c1), Some (lc :: rc :: front))
  else
    let fl := w_flag w in
    let* t1 := vec_set (c_t c) x
                 (set_w_flag w (VFlag (v_valid fl) false (v_cached fl) (v_sibcached fl))) in
    let pps := tl (c_proofpos c) in
    if v_cached fl then
      let* i := deref (p_heap (c_p c)) (w_node w) in
      let hash := match c_hashes c with h :: _ => h | [] => zero_hash end in
      if i_hash i.2 =? hash then
        match c_hashes c with
        | [] => UB (* ++proof_hash past crend() *)
        | _ :: hs => Ok (CState (c_p c) t1 (c_rec c) (c_computed c) pps hs, Some front)
        end
      else Ok (CState (c_p c) t1 (c_rec c) (c_computed c) pps (c_hashes c), Some front)
    else
      match c_hashes c with
      | [] => Ok (CState (c_p c) t1 (c_rec c) (c_computed c) pps [], None)
      | h :: hs =>
          let* i := deref (p_heap (c_p c)) (w_node w) in
          let p' := p_set_heap (c_p c) (<[i.1 := set_hash i.2 h]> (p_heap (c_p c))) in
          Ok (CState p' t1 (c_rec c) (c_computed c) pps hs, Some front)
      end.

(** pollard.cpp:448-532: the reverse iteration over one row ([xs] is the row
    from right to left, [next] is next_row). *)
Fixpoint create_row (n : N) (c : cstate) (xs next : list N) : res (cstate * option (list N)) :=
  match xs with
  | [] => Ok (c, Some next)
  | x :: xs' =>
      let* r := create_node n c x in
      match r.2 with
      | None => Ok (r.1, None)
      | Some front => create_row n r.1 xs' (front ++ next)
      end
  end.

(** pollard.cpp:427-536: rows from [k-1] down to 0; [xs] is proof_tree, left to
    right.  The result [None] is the early "return false". *)
Fixpoint create_rows (k : nat) (n : N) (c : cstate) (xs : list N) : res (cstate * option (list N)) :=
  match k with
  | O => Ok (c, Some xs)
  | S k' =>
      let row := N.of_nat k' in
      let* cr :=
        (match c_computed c with
         | [] => Ok (c, xs)
         | cp :: _ =>
             let* hr := HasRoot n row in
             if (hr : bool) then
               let* rp := RootPosition n row in
               if cp =? rp then
                 let* idx := RootIndex n cp in
                 let* _ := vec_at (p_roots (c_p c)) idx in
                 let* w := vec_get (c_t c) idx in
                 let* t1 := vec_set (c_t c) idx
                              (set_w_flag (set_w_pos w rp) (VFlag false false true true)) in
                 Ok (CState (c_p c) t1 (c_rec c) (c_computed c) (c_proofpos c) (c_hashes c),
                     xs ++ [idx])
               else Ok (c, xs)
             else Ok (c, xs)
         end) in
      let* r := create_row n cr.1 (rev cr.2) [] in
      match r.2 with
      | None => Ok (r.1, None)
      | Some next => create_rows k' n r.1 next
      end
  end.

(** pollard.cpp:407-541 CreateProofTree: state, proof tree, success. *)
Definition P_CreateProofTree (p : pollard) (bp : batch_proof)
    : res (pollard * wtab * list (N * chop) * list N * bool) :=
  let* pp := ProofPositions (p_n p) (m_sorted_targets bp) in
  let c0 := CState p (root_wrapper <$> p_roots p) [] (rev pp.2) (rev pp.1) (rev (m_proof bp)) in
  let* r := create_rows (S (N.to_nat (NumRows (p_n p)))) (p_n p) c0 [] in
  let c := r.1 in
  match r.2 with
  | None => Ok (c_p c, c_t c, c_rec c, [], false)
  | Some xs => Ok (c_p c, c_t c, c_rec c, xs,
                   match c_hashes c with [] => true | _ => false end)
  end.

(** parent->MarkAsValid(). *)
Definition mark_valid (t : wtab) (x : N) : res wtab :=
  let* w := vec_get t x in
  let fl := w_flag w in
  vec_set t x (set_w_flag w (VFlag true (v_target fl) (v_cached fl) (v_sibcached fl))).

(** pollard.cpp:737-746 ReHashNoPrune and 748-762 ReHashAndVerify. *)
Definition P_ReHashNoPrune (p : pollard) (w : wnode) : res pollard :=
  let* s := deref (p_heap p) (w_sib w) in
  if is_null (i_l s.2) || is_null (i_r s.2) then Ok p else
  let* a := deref (p_heap p) (i_l s.2) in
  let* b := deref (p_heap p) (i_r s.2) in
  let* i := deref (p_heap p) (w_node w) in
  Ok (p_set_heap p (<[i.1 := set_hash i.2 (H (i_hash a.2) (i_hash b.2))]> (p_heap p))).
Definition P_ReHashAndVerify (p : pollard) (w : wnode) : res bool :=
  let* s := deref (p_heap p) (w_sib w) in
  if is_null (i_l s.2) || is_null (i_r s.2) then Ok false else
  if v_valid (w_flag w) then Ok true else
  let* a := deref (p_heap p) (i_l s.2) in
  let* b := deref (p_heap p) (i_r s.2) in
  let* i := deref (p_heap p) (w_node w) in
  Ok (H (i_hash a.2) (i_hash b.2) =? i_hash i.2).

(** Result of visiting one proof node: go on, stop the row with
    verification_success = false, or "return false". *)
Inductive vres := VGo | VStop | VFalse.

(** pollard.cpp:555-628: one node.  [next] is next_proof_tree, [ths] the
    target hashes still to be consumed. *)
Definition verify_node (p : pollard) (t : wtab) (ths : list hash) (next : list N) (x : N)
    : res (pollard * wtab * list hash * list N * vres) :=
  let* w := vec_get t x in
  if negb (v_target (w_flag w)) then Ok (p, t, ths, next, VGo) else
  let* t1 := (match w_parent w with
              | Some y => if v_valid (w_flag w) then mark_valid t y else Ok t
              | None => Ok t
              end) in
  let next1 := match w_parent w with
               | None => next
               | Some y => match last next with
                           | Some z => if z =? y then next else next ++ [y]
                           | None => next ++ [y]
                           end
               end in
  let fl := w_flag w in
  if w_pos w <? p_n p then
    match ths with
    | [] => Ok (p, t1, ths, next1, VFalse)
    | th :: ths' =>
        let* i := deref (p_heap p) (w_node w) in
        let* r :=
          (if v_cached fl then
             if i_hash i.2 =? th then
               let* t2 := (match w_parent w with
                           | Some y => if v_sibcached fl then mark_valid t1 y else Ok t1
                           | None => Ok t1
                           end) in
               Ok (p, t2, true)
             else Ok (p, t1, false)
           else Ok (p_set_heap p (<[i.1 := set_hash i.2 th]> (p_heap p)), t1, true)) in
        let '(p1, t2, ok) := r in
        if negb ok then Ok (p1, t2, ths, next1, VStop) else
        let* s := deref (p_heap p1) (w_sib w) in
        let p2 := p_set_heap p1 (<[s.1 := set_niece s.2 false (Some rem)]> (p_heap p1)) in
        Ok (p2, t2, ths', next1, VGo)
    end
  else if negb (v_valid fl) && v_cached fl then
    let* ok := P_ReHashAndVerify p w in
    if negb ok then Ok (p, t1, ths, next1, VStop) else
    let* t2 := (match w_parent w with
                | Some y => if v_sibcached fl then mark_valid t1 y else Ok t1
                | None => Ok t1
                end) in
    Ok (p, t2, ths, next1, VGo)
  else if v_valid fl && v_cached fl then Ok (p, t1, ths, next1, VGo)
  else
    let* p1 := P_ReHashNoPrune p w in
    let* _ := assert_ (match w_parent w with Some _ => true | None => false end) in
    Ok (p1, t1, ths, next1, VGo).

Fixpoint verify_row (p : pollard) (t : wtab) (ths : list hash) (next xs : list N)
    : res (pollard * wtab * list hash * list N * vres) :=
  match xs with
  | [] => Ok (p, t, ths, next, VGo)
  | x :: xs' =>
      let* r := verify_node p t ths next x in
      let '(p1, t1, ths1, next1, v) := r in
      match v with
      | VGo => verify_row p1 t1 ths1 next1 xs'
      | _ => Ok (p1, t1, ths1, next1, v)
      end
  end.

(** pollard.cpp:551-637: the while loop (at most 65 rows are visited). *)
Fixpoint verify_rows (fuel : nat) (p : pollard) (t : wtab) (ths : list hash) (xs : list N)
    : res (pollard * wtab * bool) :=
  match xs with
  | [] => Ok (p, t, match ths with [] => true | _ => false end)
  | _ =>
      match fuel with
      | O => NoFuel
      | S k =>
          let* r := verify_row p t ths [] xs in
          let '(p1, t1, ths1, next, v) := r in
          match v with
          | VGo => verify_rows k p1 t1 ths1 next
          | _ => Ok (p1, t1, false)
          end
      end
  end.

(** pollard.cpp:675-693: undo the insertions recorded in the recovery tree. *)
Definition recover (t : wtab) (h : heap) (xc : N * chop) : res heap :=
  let* w := vec_get t xc.1 in
  match w_sib w with
  | None => Abort
  | Some _ =>
      match xc.2 with
      | ChopL => chop_side h (w_sib w) false
      | ChopR => chop_side h (w_sib w) true
      | ChopB => chop_node h (w_sib w)
      end
  end.

(** pollard.cpp:640-716 Verify. *)
Definition P_Verify (p : pollard) (bp : batch_proof) (ths : list hash) : res (bool * pollard) :=
  if negb (size ths =? size (m_targets bp)) then Ok (false, p) else
  let* sane := bp_CheckSanity bp (p_n p) in
  if negb sane then Ok (false, p) else
  match m_targets bp with
  | [] => Ok (true, p)
  | _ =>
      let k := length (p_roots p) in
      let* ct := P_CreateProofTree p bp in
      let '(p1, t1, rec, xs, create_ok) := ct in
      let* v := (if (create_ok : bool) then verify_rows 66 p1 t1 ths xs
                 else Ok (p1, t1, false)) in
      let '(p2, t2, ok) := v in
      if negb ok then
        let* h := foldM (recover t2) (p_heap p2) rec in
        Ok (false, p_set_roots (p_set_heap p2 h) (roots_of_tab t2 k))
      else
        let* _ := int_loop (size ths) in
        let* m := foldM (fun m i =>
                           let* h := vec_get ths i in
                           let* pos := vec_get (m_sorted_targets bp) i in
                           Ok (<[h := pos]> m)) (p_posmap p2) (nseq 0 (size ths)) in
        Ok (true, p_set_roots (p_set_posmap p2 m) (roots_of_tab t2 k))
  end.

End WithHash.
