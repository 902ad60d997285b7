(** * Properties of the position arithmetic: C19, C20 *)
From Verif Require Import Base StateModel PosSpec PathFacts.

(** C19, numbering: below 2^62 leaves the positions are exactly the slots of the
    tree with [2^R] leaf slots, counted row by row from the bottom. *)
Theorem C19_numbering n R : n <= 2 ^ 62 -> is_height n R ->
  NumRows n = R /\ MaxNodes n = Ok (2 ^ (R + 1) - 1) /\
  (forall p, p < 2 ^ (R + 1) - 1 -> exists r i, slot R r i /\ p = enc R r i) /\
  (forall r i r' i', slot R r i -> slot R r' i' -> enc R r i = enc R r' i' -> r = r' /\ i = i').
Proof. exact (C19_numbering_lem n R). Qed.
Print Assumptions C19_numbering.

(** C19, rows. *)
Theorem C19_row n R r i : n <= 2 ^ 62 -> is_height n R -> slot R r i ->
  DetectRow n (enc R r i) = Ok r /\ RowOffset n (enc R r i) = Ok (enc R r 0) /\
  RowOffsetRow n r = Ok (enc R r 0).
Proof. exact (C19_row_lem n R r i). Qed.
Print Assumptions C19_row.

(** C19, parents and children are inverse. *)
Theorem C19_parent_child n R r i : n <= 2 ^ 62 -> is_height n R -> slot R (r + 1) i ->
  LeftChild n (enc R (r + 1) i) = Ok (enc R r (2 * i)) /\
  (forall b, b < 2 -> Child n (enc R (r + 1) i) b = Ok (enc R r (2 * i + b)) /\
                      Parent n (enc R r (2 * i + b)) = Ok (enc R (r + 1) i)).
Proof. exact (C19_parent_child_lem n R r i). Qed.
Print Assumptions C19_parent_child.

Theorem C19_parent n R r i : n <= 2 ^ 62 -> is_height n R -> slot R r i -> r < R ->
  Parent n (enc R r i) = Ok (enc R (r + 1) (i / 2)).
Proof. exact (C19_parent_lem n R r i). Qed.
Print Assumptions C19_parent.

(** C19, ancestors and left descendants; they are iterated parents and left
    children. *)
Theorem C19_ancestor n R r i k : n <= 2 ^ 62 -> is_height n R -> slot R r i -> r + k <= R ->
  Ancestor n (enc R r i) k = Ok (enc R (r + k) (i / 2 ^ k)) /\
  LeftDescendant n (enc R (r + k) (i / 2 ^ k)) k = Ok (enc R r (i / 2 ^ k * 2 ^ k)).
Proof. exact (C19_ancestor_lem n R r i k). Qed.
Print Assumptions C19_ancestor.

Theorem C19_ancestor_iterates n R r i k :
  n <= 2 ^ 62 -> is_height n R -> slot R r i -> r + N.of_nat k <= R ->
  Ancestor n (enc R r i) (N.of_nat k) = iter_res k (Parent n) (enc R r i).
Proof. exact (C19_iterate_lem n R r i k). Qed.
Print Assumptions C19_ancestor_iterates.

Theorem C19_left_descendant_iterates n R r i k :
  n <= 2 ^ 62 -> is_height n R -> slot R (r + N.of_nat k) i ->
  LeftDescendant n (enc R (r + N.of_nat k) i) (N.of_nat k) =
  iter_res k (LeftChild n) (enc R (r + N.of_nat k) i).
Proof. exact (C19_iterate_left_lem n R r i k). Qed.
Print Assumptions C19_left_descendant_iterates.

(** C19, siblings and cousins. *)
Theorem C19_sibling n R r i : is_height n R -> slot R r i ->
  Sibling (enc R r i) = enc R r (sib i) /\ RightSibling (enc R r i) = enc R r (2 * (i / 2) + 1) /\
  (r < R -> Cousin (enc R r i) = enc R r (4 * (i / 4) + (i + 2) mod 4)).
Proof. exact (C19_sibling_lem n R r i). Qed.
Print Assumptions C19_sibling.

Example C19_example : 15 <= 2 ^ 62 /\ is_height 15 4 /\ slot 4 2 1 /\ enc 4 2 1 = 25.
Proof.
  split; [vm_compute; discriminate|]. split; [apply PosFacts.NumRows_height; vm_compute; reflexivity|].
  split; [split; vm_compute; (reflexivity || discriminate)|vm_compute; reflexivity].
Qed.

(** The bound is sharp: with 2^62 + 1 leaves a shift count reaches 64. *)
Theorem C19_bound_sharp_refuted : exists n, n = 2 ^ 62 + 1 /\ RootPosition n 0 = UB /\ RowOffset n 0 = UB.
Proof. exists (2 ^ 62 + 1). repeat split; vm_compute; reflexivity. Qed.
Print Assumptions C19_bound_sharp_refuted.

(** C20, the forest decomposes into exactly one list of trees ... *)
Theorem C20_forest_unique n : exists ts, is_forest n ts /\ forall ts', is_forest n ts' -> ts' = ts.
Proof. exact (C20_forest_exists_lem n). Qed.
Print Assumptions C20_forest_unique.

(** ... and the root functions report it. *)
Theorem C20_roots n R ts : n <= 2 ^ 62 -> is_height n R -> is_forest n ts ->
  RootPositions n = Ok ((λ t, enc R t.1 t.2) <$> ts) /\ NumRoots n = N.of_nat (length ts) /\
  (forall r, r <= R -> exists b, HasRoot n r = Ok b /\ (b = true <-> exists i, (r, i) ∈ ts)) /\
  (forall r i, (r, i) ∈ ts -> RootPosition n r = Ok (enc R r i)) /\
  (forall r i, (r, i) ∈ ts <-> is_root n r i).
Proof. exact (C20_roots_lem n R ts). Qed.
Print Assumptions C20_roots.

(** C20, paths: [Path] finds the tree above a node, the number of levels up to
    its root, and the (negated) branch bits. *)
Theorem C20_path n R ts r i : n <= 2 ^ 62 -> is_height n R -> is_forest n ts -> node n r i ->
  exists j tr k bits, Path n (enc R r i) = Ok (N.of_nat j, tr - r, bits) /\
    RootIndex n (enc R r i) = Ok (N.of_nat j) /\ r <= tr /\
    ts !! j = Some (tr, k) /\ i / 2 ^ (tr - r) = k /\
    (forall m, m < tr - r -> N.testbit bits m = negb (N.testbit i m)).
Proof. exact (C20_path_lem n R ts r i). Qed.
Print Assumptions C20_path.

Example C20_example : is_forest 7 [(2, 0); (1, 2); (0, 6)] /\ is_height 7 3 /\ node 7 1 1 /\
  RootPositions 7 = Ok [12; 10; 6].
Proof.
  split; [split; [vm_compute; repeat split|repeat constructor]|].
  split; [apply PosFacts.NumRows_height; vm_compute; reflexivity|].
  split; [vm_compute; discriminate|vm_compute; reflexivity].
Qed.
