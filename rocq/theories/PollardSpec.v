(** * PollardSpec: what is observed of a Pollard, and its histories (specification) *)
From Verif Require Import Base CodecModel ForestModel PollardModel PosSpec MerkleSpec ForestSpec ProofSpec.

Section Spec.
Context (H : hash -> hash -> hash).

(** A collision one can read off the pollard: the children of some node, as
    stored, differ from those of the forest over [ls] but have the same parent
    hash.  This names two concrete pairs of hashes; it is not the mere existence
    of collisions. *)
Definition shows_collision (p : pollard) (ls : list hash) : Prop :=
  exists R r d a b, is_height (size ls) R /\ node (size ls) (N.of_nat (S r)) d /\
    P_Read p (enc R (N.of_nat r) (2 * d)) = Ok (Some a) /\
    P_Read p (enc R (N.of_nat r) (2 * d + 1)) = Ok (Some b) /\
    (a, b) <> (nh H (leaf_at ls) r (2 * d), nh H (leaf_at ls) r (2 * d + 1)) /\
    H a b = H (nh H (leaf_at ls) r (2 * d)) (nh H (leaf_at ls) r (2 * d + 1)).

(** Every node the pollard stores carries the hash of the corresponding node of
    the forest over [ls]. *)
Definition stores_only (p : pollard) (ls : list hash) : Prop :=
  forall R r i h, is_height (size ls) R -> node (size ls) (N.of_nat r) i ->
    P_Read p (enc R (N.of_nat r) i) = Ok (Some h) -> h = nh H (leaf_at ls) r i.

(** What the constructor and the deserialisation of a new BatchProof establish. *)
Definition proof_wf (bp : batch_proof) : Prop := m_sorted_targets bp = sortN (m_targets bp).

(** Verify returned [b] and the pollard [p'], in which no collision shows. *)
Definition verifies (f : forest) (p : pollard) (bp : batch_proof) (ths : list hash) (b : bool) (p' : pollard) : Prop :=
  proof_wf bp /\ P_Verify H p bp ths = Ok (b, p') /\ forall ls, holds_leaves f ls -> ~ shows_collision p' ls.

(** The pollard stores the nodes above the targets and their siblings. *)
Definition has_nodes (f : forest) (p : pollard) (ts : list N) : Prop :=
  forall R r i, is_height (f_n f) R -> computed (f_n f) ts r i \/ needed (f_n f) ts r i -> exists v, P_Read p (enc R r i) = Ok (Some v).

(** A forest and a pollard with a common history: both start empty, or the
    pollard is built from the roots of the forest; the pollard verifies and
    rejects any number of proofs and is pruned at any time; a modification is
    made to both, after the pollard verified a proof of its targets, or when it
    stores all that such a proof would provide. *)
Inductive synced : forest -> pollard -> Prop :=
| sy_new : synced (RamForest_new 0) (Pollard_new 0)
| sy_restore f us p : reachable H f us -> Pollard_restore (F_Roots f) (f_n f) = Ok p -> synced f p
| sy_verify f p bp ths b p' : synced f p -> verifies f p bp ths b p' -> synced f p'
| sy_prune f p p' : synced f p -> P_Prune p = Ok p' -> synced f p'
| sy_modify f p bp ths p1 (adds : list leaf) f' p' : synced f p -> verifies f p bp ths true p1 ->
    f_n f + size adds < 2 ^ 31 + size (m_sorted_targets bp) ->
    F_Modify H f adds (m_sorted_targets bp) = Ok (true, f') ->
    P_Modify H p1 adds (m_sorted_targets bp) = Ok (true, p') -> synced f' p'
| sy_stored f p (adds : list leaf) ts f' p' : synced f p -> has_nodes f p ts ->
    f_n f + size adds < 2 ^ 31 + size ts -> F_Modify H f adds ts = Ok (true, f') -> P_Modify H p adds ts = Ok (true, p') -> synced f' p'.

(** What a pollard with such a history was told to remember: the leaf hashes it
    must remember, [lo], and those it may remember, [hi].  A leaf is remembered
    when its proof was accepted or when it was added with the flag; it is
    forgotten when it is deleted or when the pollard is pruned.  The two sets
    differ only because of rejected proofs: they may leave their targets
    remembered (C29). *)
Inductive recalls : forest -> pollard -> gset hash -> gset hash -> Prop :=
| rc_new : recalls (RamForest_new 0) (Pollard_new 0) ∅ ∅
| rc_restore f us p : reachable H f us -> Pollard_restore (F_Roots f) (f_n f) = Ok p -> recalls f p ∅ ∅
| rc_accept f p lo hi bp ths p' : recalls f p lo hi -> verifies f p bp ths true p' ->
    recalls f p' (lo ∪ list_to_set ths) (hi ∪ list_to_set ths)
| rc_reject f p lo hi hi' bp ths p' : recalls f p lo hi -> verifies f p bp ths false p' ->
    (forall h, h ∈ hi' <-> h ∈ hi \/ exists t, t ∈ m_sorted_targets bp /\ t < f_n f /\ F_GetLeaf f t = Ok h) -> recalls f p' lo hi'
| rc_prune f p lo hi p' : recalls f p lo hi -> P_Prune p = Ok p' -> recalls f p' ∅ ∅
| rc_modify f p lo hi bp ths p1 (adds : list leaf) f' p' : recalls f p lo hi -> verifies f p bp ths true p1 ->
    f_n f + size adds < 2 ^ 31 + size (m_sorted_targets bp) ->
    F_Modify H f adds (m_sorted_targets bp) = Ok (true, f') ->
    P_Modify H p1 adds (m_sorted_targets bp) = Ok (true, p') ->
    recalls f' p' ((lo ∖ list_to_set ths) ∪ list_to_set (filter (λ a : leaf, a.2 = true) adds).*1)
      ((hi ∖ list_to_set ths) ∪ list_to_set (filter (λ a : leaf, a.2 = true) adds).*1)
| rc_stored f p lo hi (adds : list leaf) ts ths f' p' : recalls f p lo hi -> has_nodes f p ts -> Forall2 (λ t h, F_GetLeaf f t = Ok h) ts ths ->
    f_n f + size adds < 2 ^ 31 + size ts -> F_Modify H f adds ts = Ok (true, f') -> P_Modify H p adds ts = Ok (true, p') ->
    recalls f' p' ((lo ∖ list_to_set ths) ∪ list_to_set (filter (λ a : leaf, a.2 = true) adds).*1)
      ((hi ∖ list_to_set ths) ∪ list_to_set (filter (λ a : leaf, a.2 = true) adds).*1).
End Spec.

(** ** Ownership

    The nodes are held by owning pointers: m_roots and the nieces. *)

(** Niece [lr] of node [l] points to [l'].  The node m_remember points to is only a
    marker: the model has no record for it, and following it would be [UB]. *)
Definition owns (p : pollard) (l : loc) (lr : bool) (l' : loc) : Prop :=
  l <> rem /\ exists nd, p_heap p !! l = Some nd /\ niece nd lr = Some l'.

(** The nodes that are alive: those the roots lead to. *)
Inductive live (p : pollard) : loc -> Prop :=
| live_root k r l : p_roots p !! k = Some r -> pr_node r = Some l -> live p l
| live_niece l lr l' : live p l -> owns p l lr l' -> live p l'.

(** The places a pointer to [l] is kept in: root number [k], or a niece of a node
    that is alive. *)
Definition held (p : pollard) (o : nat + loc * bool) (l : loc) : Prop :=
  match o with
  | inl k => exists r, p_roots p !! k = Some r /\ pr_node r = Some l
  | inr (l0, lr) => live p l0 /\ owns p l0 lr l
  end.
