(** * MerkleSpec: what a forest over a sequence of leaves is (specification)

    The abstract state of an accumulator is the sequence of its leaf hashes.
    Nothing here refers to the model. *)
From Verif Require Import Base PosSpec.

Section Spec.
Context (H : hash -> hash -> hash).

(** Hash of node [(r, i)] over the leaves [leaf 0, leaf 1, ...]. *)
Fixpoint nh (leaf : N -> hash) (r : nat) (i : N) : hash :=
  match r with
  | O => leaf i
  | S r' => H (nh leaf r' (2 * i)) (nh leaf r' (2 * i + 1))
  end.

(** Leaf [i] of a sequence. *)
Definition leaf_at (ls : list hash) (i : N) : hash := ls !!! N.to_nat i.

(** The roots: the hashes of the trees of the forest, tallest first. *)
Definition roots_of (ls : list hash) (roots : list hash) : Prop :=
  exists ts, is_forest (size ls) ts /\
             roots = (λ t : N * N, nh (leaf_at ls) (N.to_nat t.1) t.2) <$> ts.

End Spec.

(** ** Deletion

    The deletion rule works row by row from the leaves up.  A row is a list of
    slots; a slot holds the leaves below it, left to right, or [None] if they
    are all gone.  The slots of a row are taken in pairs, an odd last slot is
    the root of this row. *)
Definition chunk := list hash.

Fixpoint pair_up {A} (l : list A) : list (A * A) * option A :=
  match l with
  | a :: b :: l' => ((a, b) :: (pair_up l').1, (pair_up l').2)
  | [a] => ([], Some a)
  | [] => ([], None)
  end.

(** The content left over in a pair that lost exactly one slot. *)
Definition survivor {A} (p : option A * option A) : option A :=
  match p with
  | (Some a, None) => Some a
  | (None, Some b) => Some b
  | _ => None
  end.

(** The next row.  Pairs that lost one slot are matched up from left to right:
    the first of two such pairs is completed with the survivor of the second,
    whose parent slot becomes empty.  An unmatched last one is completed with
    the root of the row, if there is one; otherwise its parent slot becomes
    empty.  [donor] tells that the next such pair is the second of a match. *)
Fixpoint refill (donor : bool) (root : option chunk) (ps : list (option chunk * option chunk))
    : list (option chunk) :=
  match ps with
  | [] => []
  | p :: ps' =>
      match survivor p with
      | None => (match p with (Some a, Some b) => Some (a ++ b) | _ => None end)
                :: refill donor root ps'
      | Some _ =>
          if donor then None :: refill false root ps' else
          let gift := match head (omap survivor ps') with Some d => Some d | None => root end in
          (match p, gift with
           | (Some a, None), Some d => Some (a ++ d)
           | (None, Some b), Some d => Some (d ++ b)
           | _, _ => None
           end) :: refill true root ps'
      end
  end.

(** The new root of the row: the old one if it is not used up, or the survivor
    of the unmatched last pair if there was no root to complete it with. *)
Definition new_root (root : option chunk) (ps : list (option chunk * option chunk)) : option chunk :=
  if Nat.even (length (omap survivor ps)) then root
  else match root with Some _ => None | None => last (omap survivor ps) end.

Definition row_root (row : list (option chunk)) : option chunk := mjoin (pair_up row).2.
Definition next_row (row : list (option chunk)) : list (option chunk) :=
  refill false (row_root row) (pair_up row).1.

(** All rows: taller trees come first. *)
Fixpoint remove_rows (k : nat) (row : list (option chunk)) : list hash :=
  match k with
  | O => []
  | S k' => remove_rows k' (next_row row) ++ default [] (new_root (row_root row) (pair_up row).1)
  end.

(** The leaves after deleting the leaves at the positions [targets].
    (A row has fewer slots than the one below, so [S (length ls)] rows are enough.) *)
Definition leaf_row (ls : list hash) (targets : list N) : list (option chunk) :=
  imap (fun i h => if decide (N.of_nat i ∈ targets) then None else Some [h]) ls.
Definition spec_remove (ls : list hash) (targets : list N) : list hash :=
  remove_rows (S (length ls)) (leaf_row ls targets).

(** The surviving leaves, in their old order. *)
Definition survivors (ls : list hash) (ts : list N) : list hash :=
  omap (λ p : nat * hash, if decide (N.of_nat p.1 ∈ ts) then None else Some p.2) (imap pair ls).
