(** * ForestSpec: what is observed of a RamForest, and its histories
    (specification)

    The vocabulary of the forest properties: the calls a user makes, in the order
    they make them, and what the public interface lets them see. *)
From Verif Require Import Base CodecModel ForestModel PosSpec MerkleSpec.

(** The forest reports exactly the leaves [ls], in this order. *)
Definition holds_leaves (f : forest) (ls : list hash) : Prop :=
  f_n f = size ls /\ forall i, i < size ls -> F_GetLeaf f i = Ok (leaf_at ls i).

(** Two forests agree on everything that can be read from them: number of
    leaves, roots, position map and the hash of every node. *)
Definition same_forest (f g : forest) : Prop :=
  f_n f = f_n g /\ F_Roots f = F_Roots g /\ f_posmap f = f_posmap g /\
  forall R r i, is_height (f_n f) R -> node (f_n f) r i ->
    exists h, F_Read f (enc R r i) = Ok h /\ F_Read g (enc R r i) = Ok h.

Section Hist.
Context (H : hash -> hash -> hash).

(** The forests reached from the empty one by successful calls, always holding
    fewer than [2^31] leaves (the [int] loop counters of the code), with the undo batches that were handed out and are
    not undone yet (last one first).  Without an undo batch, or after reopening
    from the file, earlier batches are given up. *)
Inductive reachable : forest -> list undo_batch -> Prop :=
| reach_new : reachable (RamForest_new 0) []
| reach_modify f us adds ts f' : reachable f us -> f_n f + size adds < 2 ^ 31 + size ts ->
    F_Modify H f adds ts = Ok (true, f') -> reachable f' []
| reach_modify_undo f us adds ts u f' : reachable f us -> f_n f + size adds < 2 ^ 31 + size ts ->
    F_ModifyUndo H f adds ts = Ok (true, Some u, f') -> reachable f' (u :: us)
| reach_undo f u us f' : reachable f (u :: us) -> F_Undo H f u = Ok (true, f') -> reachable f' us
| reach_reopen f us old bytes f' : reachable f us ->
    (forall a b, H a b < 256 ^ 32) -> (forall i h, i < f_n f -> F_GetLeaf f i = Ok h -> h < 256 ^ 32) ->
    F_Commit f old = Ok bytes -> F_Restore bytes = Ok f' -> reachable f' [].

(** [f'] is [f] after some modifications; [us] are their undo batches, last one
    first. *)
Inductive modifies : forest -> list undo_batch -> forest -> Prop :=
| mod_nil f : modifies f [] f
| mod_cons f adds ts u f1 us f2 : f_n f + size adds < 2 ^ 31 + size ts ->
    F_ModifyUndo H f adds ts = Ok (true, Some u, f1) -> modifies f1 us f2 -> modifies f (us ++ [u]) f2.

(** Undo one after the other; [None] as soon as one of them reports failure. *)
Fixpoint undo_all (f : forest) (us : list undo_batch) : res (option forest) :=
  match us with
  | [] => Ok (Some f)
  | u :: us' => let* r := F_Undo H f u in if (r.1 : bool) then undo_all r.2 us' else Ok None
  end.
End Hist.

(** The entries of a map in some order, as an iteration may meet them. *)
Definition iterates (es : list (N * N)) (m : gmap N N) : Prop := es ≡ₚ map_to_list m.
