(** * StateModel: src/state.cpp and src/state.h, function by function

    A [ForestState] is just its number of leaves [n] (state.h:44), so every
    method takes [n] as first argument.  Positions and row numbers are [N].
    Methods whose shifts can have an out-of-range count return [res]. *)
From Verif Require Import Base.

(** crypto/common.h:83-101 CountBits.  [N.size x] is the smallest [k] with
    [x >> k = 0], which is what both the clz and the loop version compute. *)
Definition CountBits (x : N) : N := N.size x.

(** state.cpp:311-315 _numRows and 318-321 ForestState::NumRows. *)
Definition NumRows (n : N) : N :=
  if n =? 0 then 0 else CountBits (n - 1).

(** state.cpp:409-410 _maxNodes / MaxNodes: (2ULL << rows) - 1. *)
Definition MaxNodes (n : N) : res N :=
  let* m := shl64 2 (NumRows n) in Ok (sub64 m 1).

(** state.cpp:61-64 ForestState::Parent. *)
Definition Parent (n pos : N) : res N :=
  let* m := shl64 1 (NumRows n) in
  Ok (N.lor (N.shiftr pos 1) m).

(** state.cpp:66-75 ForestState::Ancestor.  [rows - (rise - 1)] is computed in
    [int]. *)
Definition Ancestor (n pos rise : N) : res N :=
  if rise =? 0 then Ok pos else
  let* mask := MaxNodes n in
  let* p := shr64 pos rise in
  let* c := int_sub (NumRows n) (rise - 1) in
  let* m := shl64 mask c in
  Ok (N.land (N.lor p m) mask).

(** state.cpp:77-81 ForestState::LeftChild (CHECK_SAFE compiled out). *)
Definition LeftChild (n pos : N) : res N :=
  let* p := shl64 pos 1 in
  let* mask := MaxNodes n in
  Ok (N.land p mask).

(** state.cpp:83-86 ForestState::Child. *)
Definition Child (n pos placement : N) : res N :=
  let* l := LeftChild n pos in Ok (N.lor l placement).

(** state.cpp:88-98 ForestState::LeftDescendant. *)
Definition LeftDescendant (n pos drop : N) : res N :=
  if drop =? 0 then Ok pos else
  let* mask := MaxNodes n in
  let* p := shl64 pos drop in
  Ok (N.land p mask).

(** state.cpp:100, 102, 104. *)
Definition Cousin (pos : N) : N := N.lxor pos 2.
Definition RightSibling (pos : N) : N := N.lor pos 1.
Definition Sibling (pos : N) : N := N.lxor pos 1.

(** state.cpp:323-333 ForestState::DetectRow.  The loop ends because the
    marker becomes 0 after at most 64 shifts. *)
Fixpoint detect_loop (fuel : nat) (pos marker row : N) : res N :=
  if N.land pos marker =? 0 then Ok row else
  match fuel with
  | O => NoFuel
  | S f => detect_loop f pos (N.shiftr marker 1) (row + 1)
  end.
Definition DetectRow (n pos : N) : res N :=
  let* m := shl64 1 (NumRows n) in detect_loop 64 pos m 0.

(** state.cpp:340-344 RowOffset(uint8_t row) and 335-338 RowOffset(uint64_t pos). *)
Definition RowOffsetRow (n row : N) : res N :=
  let* marker := MaxNodes n in
  let* c := int_sub (NumRows n + 1) row in
  let* m := shl64 (two64 - 1) c in
  Ok (N.land m marker).
Definition RowOffset (n pos : N) : res N :=
  let* row := DetectRow n pos in RowOffsetRow n row.

(** state.cpp:250-254 NumRoots: population count of the number of leaves. *)
Fixpoint popcount_pos (p : positive) : N :=
  match p with
  | xH => 1
  | xO p' => popcount_pos p'
  | xI p' => 1 + popcount_pos p'
  end.
Definition NumRoots (n : N) : N :=
  match n with N0 => 0 | Npos p => popcount_pos p end.

(** state.cpp:256-264 _hasRoot / HasRoot. *)
Definition HasRoot (n row : N) : res bool :=
  let* s := shr64 n row in Ok (N.land s 1 =? 1).

(** state.cpp:266-272 _rootPosition. *)
Definition root_position (row num_leaves rows : N) : res N :=
  let* m2 := shl64 2 rows in
  let mask := sub64 m2 1 in
  let* m := shl64 mask (row + 1) in
  let before := N.land num_leaves m in
  let* b := shr64 before row in
  let* c := int_sub (rows + 1) row in
  let* m' := shl64 mask c in
  Ok (N.land (N.lor b m') mask).

(** state.cpp:274-277 RootPosition. *)
Definition RootPosition (n row : N) : res N := root_position row n (NumRows n).

(** state.cpp:279-299 RootPositions() and RootPositions(num_leaves): rows from
    NumRows() of the state down to 0, [uint8_t row] ending by wrap-around to 255. *)
Fixpoint root_positions_from (k : nat) (num_leaves rows : N) : res (list N) :=
  let row := N.of_nat k in
  let* here :=
     (let* b := HasRoot num_leaves row in
      if (b : bool) then let* p := root_position row num_leaves rows in Ok [p]
      else Ok []) in
  match k with
  | O => Ok here
  | S k' => let* rest := root_positions_from k' num_leaves rows in Ok (here ++ rest)
  end.
Definition RootPositionsFor (n num_leaves : N) : res (list N) :=
  if NumRows n <? 64
  then root_positions_from (N.to_nat (NumRows n)) num_leaves (NumRows n)
  else Ok [].
Definition RootPositions (n : N) : res (list N) := RootPositionsFor n n.

(** state.cpp:106-146 ForestState::Path.  [--rows] on a uint8_t wraps from 0 to
    255, after which the next shift is undefined: the recursion needs at most
    66 steps. Result: (tree index, path length, path bits). *)
Fixpoint path_loop (fuel : nat) (n pos row rows bigger : N) : res (N * N * N) :=
  let* a := shl64 pos row in
  let* m2 := shl64 2 rows in
  let* c := shl64 1 rows in
  let treeSize := N.land c n in
  if treeSize <=? N.land a (sub64 m2 1) then
    match fuel with
    | O => NoFuel
    | S f =>
        let pos' := if treeSize =? 0 then pos else sub64 pos treeSize in
        let bigger' := if treeSize =? 0 then bigger else (bigger + 1) mod 256 in
        path_loop f n pos' row (if rows =? 0 then 255 else rows - 1) bigger'
    end
  else Ok (bigger, (rows + 256 - row) mod 256, not64 pos).
Definition Path (n pos : N) : res (N * N * N) :=
  let* row := DetectRow n pos in
  path_loop 66 n pos row (NumRows n) 0.

(** state.cpp:301-306 RootIndex. *)
Definition RootIndex (n pos : N) : res N :=
  let* p := Path n pos in Ok (p.1.1).

(** ** ProofPositions, state.cpp:148-246 *)

(** One turn of the [while (start < end)] loop, state.cpp:175-237: the proof
    positions it appends, the next-row targets it appends and the number of
    targets it consumes. ([int size = end - start] is not truncated here:
    fewer than 2^31 targets.) *)
Definition pp_case (n : N) (ts : list N) : res (list N * list N * nat) :=
  let single :=
    match ts with
    | t0 :: _ => let* p0 := Parent n t0 in Ok ([Sibling t0], [p0], 1%nat)
    | [] => UB
    end in
  let two :=
    match ts with
    | t0 :: t1 :: _ =>
        if RightSibling t0 =? t1 then
          let* p0 := Parent n t0 in Ok ([], [p0], 2%nat)
        else if Cousin (RightSibling t0) =? RightSibling t1 then
          let* p0 := Parent n t0 in
          let* p1 := Parent n t1 in
          Ok ([Sibling t0; Sibling t1], [p0; p1], 2%nat)
        else single
    | _ => single
    end in
  let three :=
    match ts with
    | t0 :: t1 :: t2 :: _ =>
        if Cousin (RightSibling t0) =? RightSibling t2 then
          let* p0 := Parent n t0 in
          let* p2 := Parent n t2 in
          Ok ([if RightSibling t1 =? RightSibling t0 then Sibling t2 else Sibling t0],
              [p0; p2], 3%nat)
        else two
    | _ => two
    end in
  match ts with
  | t0 :: t1 :: t2 :: t3 :: _ =>
      if Cousin (RightSibling t0) =? RightSibling t3 then
        let* p0 := Parent n t0 in
        let* p3 := Parent n t3 in
        Ok ([], [p0; p3], 4%nat)
      else three
  | _ => three
  end.

(** The [while] loop, state.cpp:175-237 (fuel: one unit per target). *)
Fixpoint pp_scan (fuel : nat) (n : N) (ts : list N) : res (list N * list N) :=
  match ts with
  | [] => Ok ([], [])
  | _ :: _ =>
      match fuel with
      | O => NoFuel
      | S f =>
          let* c := pp_case n ts in
          let '(pr, nx, k) := c in
          let* r := pp_scan f n (drop k ts) in
          Ok (pr ++ r.1, nx ++ r.2)
      end
  end.

(** state.cpp:169-173: drop the last target if it is the root of this row. *)
Definition pp_strip_root (n row : N) (ts : list N) : res (list N) :=
  let* hr := HasRoot n row in
  if (hr : bool) then
    match last ts with
    | None => Ok ts
    | Some t =>
        let* rp := RootPosition n row in
        Ok (if t =? rp then removelast ts else ts)
    end
  else Ok ts.

(** state.cpp:166-243: the loop over rows; returns (proof, computed). *)
Fixpoint pp_rows (k : nat) (row n : N) (ts : list N) : res (list N * list N) :=
  match k with
  | O => Ok ([], [])
  | S k' =>
      let* ts' := pp_strip_root n row ts in
      let* pn := pp_scan (length ts') n ts' in
      let* r := pp_rows k' (row + 1) n pn.2 in
      Ok (pn.1 ++ r.1, ts ++ r.2)
  end.
Definition ProofPositions (n : N) (targets : list N) : res (list N * list N) :=
  pp_rows (S (N.to_nat (NumRows n))) 0 n targets.

(** ** Target checks *)

(** state.cpp:414-423 IsSortedNoDupes.  [targets.size() - 1] wraps for the empty
    list and the loop then reads out of range; the caller excludes it. *)
Fixpoint sorted_no_dupes (l : list N) : bool :=
  match l with
  | x :: ((y :: _) as l') => (x <? y) && sorted_no_dupes l'
  | _ => true
  end.
Definition IsSortedNoDupes (l : list N) : res bool :=
  match l with [] => UB | _ => Ok (sorted_no_dupes l) end.

(** state.cpp:425-450 CheckTargetsSanity. *)
Definition CheckTargetsSanity (n : N) (targets : list N) : res bool :=
  match targets with
  | [] => Ok true
  | _ =>
      if n <? size targets then Ok false else
      let* s := IsSortedNoDupes targets in
      if negb s then Ok false else
      let* b := vec_back targets in
      Ok (negb (n <=? b))
  end.

(** ** Transform *)

(** state.h:20-39 class Swap. *)
Record swap := Swap {
  m_from : N;
  m_to : N;
  m_collapse : bool;
  m_is_range_swap : bool;
  m_range : N }.
Definition mk_swap (from to : N) : swap := Swap from to false false 0.
Definition mk_collapse (from to : N) (c : bool) : swap := Swap from to c false 0.
Definition mk_range_swap (from to range : N) : swap := Swap from to false true range.

(** state.cpp:454-485 ComputeNextRowTargets; [singles] is the number of targets
    without sibling seen so far (targets_without_siblings.size()).
    Result: (parents, targets without siblings). *)
Fixpoint cnrt_loop (n : N) (ts : list N) (singles : nat) : res (list N * list N) :=
  match ts with
  | [] => Ok ([], [])
  | t0 :: r1 =>
      let lone :=
        let* rest := cnrt_loop n r1 (S singles) in
        if Nat.even (S singles) then
          let* p := Parent n t0 in Ok (p :: rest.1, t0 :: rest.2)
        else Ok (rest.1, t0 :: rest.2) in
      match r1 with
      | t1 :: r2 =>
          if RightSibling t0 =? t1 then
            let* p := Parent n t0 in
            let* rest := cnrt_loop n r2 singles in
            Ok (p :: rest.1, rest.2)
          else lone
      | [] => lone
      end
  end.
Definition ComputeNextRowTargets (n : N) (targets : list N)
    (deletion_remains root_present : bool) : res (list N * list N) :=
  let* r := cnrt_loop n targets 0 in
  if deletion_remains && negb root_present then
    let* b := vec_back r.2 in
    let* p := Parent n b in
    Ok (r.1 ++ [p], r.2)
  else Ok r.

(** state.cpp:487-512 MakeSwaps. *)
Fixpoint make_swaps_loop (ts : list N) : list swap * list N :=
  match ts with
  | t0 :: t1 :: r => let '(ss, rest) := make_swaps_loop r in
                     (mk_swap (Sibling t1) t0 :: ss, rest)
  | _ => ([], ts)
  end.
Definition MakeSwaps (targets : list N) (deletion_remains root_present : bool)
    (root_pos : N) : res (list swap) :=
  let '(ss, rest) := make_swaps_loop targets in
  if deletion_remains && root_present then
    match rest with
    | t :: _ => Ok (ss ++ [mk_swap root_pos t])
    | [] => UB
    end
  else Ok ss.

(** state.cpp:514-539 MakeCollapse. *)
Definition MakeCollapse (n : N) (targets : list N) (deletion_remains root_present : bool)
    (row next_num_leaves : N) : res swap :=
  let* root_dest := root_position row next_num_leaves (NumRows n) in
  if negb deletion_remains && root_present then
    let* rp := RootPosition n row in Ok (mk_collapse rp root_dest true)
  else if deletion_remains && negb root_present then
    match last targets with
    | None => Abort
    | Some t => Ok (mk_collapse (Sibling t) root_dest true)
    end
  else Ok (mk_swap 0 0).

(** state.cpp:361-383: the row loop of Transform.  [k] rows remain. *)
Fixpoint transform_rows (k : nat) (row n next_num_leaves : N) (cur : list N)
    : res (list (list swap) * list swap) :=
  match k, cur with
  | O, _ => Ok ([], [])
  | _, [] => Ok ([], [])
  | S k', _ =>
      let* root_present0 := HasRoot n row in
      let* root_pos := RootPosition n row in
      let* b := vec_back cur in
      let popped := root_present0 && (b =? root_pos) in
      let cur' := if popped then removelast cur else cur in
      let root_present := if popped then false else root_present0 in
      let deletion_remains := Nat.odd (length cur') in
      let* ep := ComputeNextRowTargets n cur' deletion_remains root_present in
      let parents := sortN ep.1 in
      let* ss := MakeSwaps ep.2 deletion_remains root_present root_pos in
      let* c := MakeCollapse n ep.2 deletion_remains root_present row next_num_leaves in
      let* r := transform_rows k' (row + 1) n next_num_leaves parents in
      Ok (ss :: r.1, c :: r.2)
  end.

(** state.cpp:588-598 SwapIfDescendant: the new value of [collapse]. *)
Definition SwapIfDescendant (n : N) (s c : swap) (swap_row collapse_row : N) : res swap :=
  let row_diff := swap_row - collapse_row in
  let* anc := Ancestor n (m_to c) row_diff in
  if xorb (anc =? m_from s) (anc =? m_to s) then
    let* d := shl64 (N.lxor (m_from s) (m_to s)) row_diff in
    Ok (Swap (m_from c) (N.lxor (m_to c) d) (m_collapse c) (m_is_range_swap c) (m_range c))
  else Ok c.

(** state.cpp:575-586 SwapInRow: rewrite the collapses on rows below
    [swap_row] ([crow] is the row of the head of the list). *)
Fixpoint SwapInRow (n : N) (s : swap) (collapses : list swap) (crow swap_row : N)
    : res (list swap) :=
  match collapses with
  | [] => if crow <? swap_row then Throw else Ok []
  | c :: cs =>
      if crow <? swap_row then
        let* c' := (if m_collapse c then SwapIfDescendant n s c swap_row crow else Ok c) in
        let* cs' := SwapInRow n s cs (crow + 1) swap_row in
        Ok (c' :: cs')
      else Ok (c :: cs)
  end.

(** state.cpp:550-563: rows [row], row-1, ..., 1 of the first loop of
    ConvertCollapses. *)
Fixpoint convert_rows (row : nat) (n : N) (swaps : list (list swap)) (collapses : list swap)
    : res (list swap) :=
  match row with
  | O => Ok collapses
  | S row' =>
      let* ss := vec_at swaps (N.of_nat row) in
      let* cs := foldM (fun cs s => SwapInRow n s cs 0 (N.of_nat row)) collapses ss in
      let* c := vec_at cs (N.of_nat row) in
      let* cs := (if m_collapse c then SwapInRow n c cs 0 (N.of_nat row) else Ok cs) in
      convert_rows row' n swaps cs
  end.

(** state.cpp:565-572: append the converted collapses to the swaps. *)
Fixpoint append_collapses (swaps : list (list swap)) (collapses : list swap)
    : res (list (list swap)) :=
  match collapses with
  | [] => Ok swaps
  | c :: cs =>
      let keep := negb (m_from c =? m_to c) && m_collapse c in
      match swaps with
      | [] => if keep then Throw else append_collapses [] cs
      | s :: ss =>
          let* r := append_collapses ss cs in
          Ok ((if keep then s ++ [c] else s) :: r)
      end
  end.

(** state.cpp:541-573 ConvertCollapses. *)
Definition ConvertCollapses (n : N) (swaps : list (list swap)) (collapses : list swap)
    : res (list (list swap)) :=
  match collapses with
  | [] => Ok swaps
  | _ =>
      let* cs := convert_rows (length collapses - 1) n swaps collapses in
      append_collapses swaps cs
  end.

(** state.cpp:348-389 Transform. *)
Definition Transform (n : N) (targets : list N) : res (list (list swap)) :=
  let next_num_leaves := sub64 n (size targets) in
  let* sc := transform_rows (N.to_nat (NumRows n)) 0 n next_num_leaves targets in
  ConvertCollapses n sc.1 sc.2.

(** state.cpp:601-612 Swap::ToLeaves. *)
Definition ToLeaves (n : N) (s : swap) : res swap :=
  let* row := DetectRow n (m_from s) in
  if row =? 0 then Ok s else
  let* f := LeftDescendant n (m_from s) row in
  let* t := LeftDescendant n (m_to s) row in
  let* r := shl64 1 row in
  Ok (mk_range_swap f t r).

(** state.cpp:391-405 UndoTransform. *)
Definition UndoTransform (n : N) (targets : list N) : res (list swap) :=
  let* prev := Transform n targets in
  mapM_ (ToLeaves n) (List.filter (fun s => negb (m_from s =? m_to s)) (concat prev)).
