(** * PosSpec: coordinates of the nodes of a forest (specification)

    A forest with [2^R] leaf slots has rows [0..R]; row [r] has the [2^(R-r)]
    slots [0 .. 2^(R-r) - 1].  Slots are numbered row by row from the bottom:
    the number of slot [i] of row [r] is the number of slots on the rows below
    plus [i].  Nothing here refers to the model. *)
From Verif Require Import Base.
From Coq Require Export Sorting.Sorted.

(** Number of slots on rows [0 .. r-1]. *)
Fixpoint slots_below (R : N) (r : nat) : N :=
  match r with
  | O => 0
  | S r' => slots_below R r' + 2 ^ (R - N.of_nat r')
  end.

(** Position number of slot [i] on row [r]. *)
Definition enc (R r i : N) : N := slots_below R (N.to_nat r) + i.

(** [(r, i)] is a slot. *)
Definition slot (R r i : N) : Prop := r <= R /\ i < 2 ^ (R - r).

(** The height of a forest with [n] leaves: the least [R] with [n <= 2^R]. *)
Definition is_height (n R : N) : Prop :=
  n <= 2 ^ R /\ forall R', n <= 2 ^ R' -> R <= R'.

(** Node [(r, i)] covers the leaves [i*2^r .. (i+1)*2^r - 1]; it exists in a
    forest of [n] leaves iff all of them do. *)
Definition node (n r i : N) : Prop := (i + 1) * 2 ^ r <= n.

(** It is a root iff it exists and its parent does not. *)
Definition is_root (n r i : N) : Prop := node n r i /\ ~ node n (r + 1) (i / 2).

(** The index of the sibling. *)
Definition sib (i : N) : N := if N.even i then i + 1 else i - 1.

(** A valid target list: strictly increasing leaf positions. *)
Definition valid_targets (n : N) (ts : list N) : Prop :=
  StronglySorted N.lt ts /\ Forall (fun t => t < n) ts.

(** A list of nodes (row, index) covers the leaves [s .. e-1], left to right
    without gap or overlap. *)
Fixpoint tiles (s e : N) (ts : list (N * N)) : Prop :=
  match ts with
  | [] => s = e
  | (r, i) :: ts' => s = i * 2 ^ r /\ tiles ((i + 1) * 2 ^ r) e ts'
  end.

(** The trees of a forest of [n] leaves: perfect trees of strictly decreasing
    height covering [0 .. n-1].  (Unique: the binary expansion of [n].) *)
Definition is_forest (n : N) (ts : list (N * N)) : Prop :=
  tiles 0 n ts /\ StronglySorted (fun a b => b.1 < a.1) ts.
