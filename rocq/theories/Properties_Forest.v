(** * Properties of the full forest: C01-C05, C07-C10, C24, C36-C38 *)
From Verif Require Import Base StateModel CodecModel ForestModel PosSpec MerkleSpec ForestSpec HistFacts ForestExamples.

(** C01: in every reachable state the roots are the Merkle roots of the leaves,
    tallest tree first.  The parent hash [H] is arbitrary. *)
Theorem C01_roots H f us : reachable H f us ->
  exists ls, holds_leaves f ls /\ roots_of H ls (F_Roots f).
Proof. exact (C01_lem H f us). Qed.
Print Assumptions C01_roots.

Example C01_example : exists f us, reachable ex_H f us /\ holds_leaves f ex_ls'.
Proof. destruct ex_history as (_ & u0 & u & f' & _ & _ & _ & _ & _ & Hr & Hh & _). by exists f', [u; u0]. Qed.

(** C02: a successful Modify keeps exactly the leaves that are no target and
    appends the new ones. *)
Theorem C02_exact H f us ls (adds : list leaf) ts f' :
  reachable H f us -> holds_leaves f ls -> size ls + size adds < 2 ^ 31 + size ts ->
  (F_Modify H f adds ts = Ok (true, f') \/ exists u, F_ModifyUndo H f adds ts = Ok (true, u, f')) ->
  valid_targets (size ls) ts /\
  exists ls', holds_leaves f' ls' /\ ls' ≡ₚ survivors ls ts ++ adds.*1 /\ size ls' + size ts = size ls + size adds.
Proof. exact (C02_lem H f us ls adds ts f'). Qed.
Print Assumptions C02_exact.

(** C03: the order of the leaves afterwards is given by the deletion rule of
    [MerkleSpec] followed by the new leaves. *)
Theorem C03_canonical H f us ls (adds : list leaf) ts f' :
  reachable H f us -> holds_leaves f ls -> size ls + size adds < 2 ^ 31 + size ts ->
  (F_Modify H f adds ts = Ok (true, f') \/ exists u, F_ModifyUndo H f adds ts = Ok (true, u, f')) ->
  holds_leaves f' (spec_remove ls ts ++ adds.*1).
Proof. exact (C03_lem H f us ls adds ts f'). Qed.
Print Assumptions C03_canonical.

Example C02_C03_example : exists f us f', reachable ex_H f us /\ holds_leaves f ex_ls /\
  size ex_ls + size ex_adds < 2 ^ 31 + size ex_ts /\ F_Modify ex_H f ex_adds ex_ts = Ok (true, f') /\
  spec_remove ex_ls ex_ts ++ ex_adds.*1 = ex_ls'.
Proof. destruct ex_history as (f & u0 & u & f' & Hr & Hh & _ & E & _). by exists f, [u0], f'. Qed.

(** C04: Modify reports failure exactly for target lists that are not strictly
    increasing positions below the number of leaves, and then changes nothing;
    this half needs no reachability. *)
Theorem C04_reject H f (adds : list leaf) ts : ~ valid_targets (f_n f) ts ->
  F_Modify H f adds ts = Ok (false, f) /\ F_ModifyUndo H f adds ts = Ok (false, None, f).
Proof. exact (C04_reject_lem H f adds ts). Qed.
Print Assumptions C04_reject.

Theorem C04_accept H f us (adds : list leaf) ts :
  reachable H f us -> f_n f + size adds < 2 ^ 31 + size ts -> valid_targets (f_n f) ts ->
  (forall f', F_Modify H f adds ts <> Ok (false, f')) /\ (forall u f', F_ModifyUndo H f adds ts <> Ok (false, u, f')).
Proof. exact (C04_accept_lem H f us adds ts). Qed.
Print Assumptions C04_accept.

Example C04_example : ~ valid_targets 7 [3; 3] /\ ~ valid_targets 7 [2; 7] /\ valid_targets 7 ex_ts /\
  exists f us, reachable ex_H f us /\ f_n f = 7.
Proof.
  split; [|split; [|split; [exact ex_valid|]]].
  - intros [Hs _]. by inversion_clear Hs as [|? ? _ Hx]; inversion_clear Hx.
  - intros [_ Hx]. by inversion_clear Hx as [|? ? _ Hy]; inversion_clear Hy.
  - destruct ex_history as (f & u0 & _ & _ & Hr & _ & Hn & _). by exists f, [u0].
Qed.

(** C05: with fresh, pairwise distinct leaves Modify always returns: no
    undefined behaviour, failed assertion or exception, and its result says
    whether the targets were valid. *)
Theorem C05_no_ub H f us (adds : list leaf) ts :
  reachable H f us -> f_n f + size adds < 2 ^ 31 + size ts ->
  NoDup adds.*1 -> (forall h i, h ∈ adds.*1 -> i < f_n f -> F_GetLeaf f i <> Ok h) ->
  exists b u f', F_Modify H f adds ts = Ok (b, f') /\ F_ModifyUndo H f adds ts = Ok (b, u, f') /\
    (b = true <-> valid_targets (f_n f) ts).
Proof. exact (C05_lem H f us adds ts). Qed.
Print Assumptions C05_no_ub.

Example C05_example : exists f us, reachable ex_H f us /\ f_n f + size ex_adds < 2 ^ 31 + size ex_ts /\
  NoDup ex_adds.*1 /\ (forall h i, h ∈ ex_adds.*1 -> i < f_n f -> F_GetLeaf f i <> Ok h).
Proof.
  destruct ex_history as (f & u0 & _ & _ & Hr & Hh & Hn & _). exists f, [u0]. rewrite Hn. split; [done|]. split; [done|].
  split; [apply (bool_decide_unpack _); by vm_compute|]. rewrite <- Hn. intros h i. exact (ex_fresh f h i Hh).
Qed.

(** C07: the position map is the inverse of the leaf array. *)
Theorem C07_position_map H f us h p : reachable H f us ->
  f_posmap f !! h = Some p <-> p < f_n f /\ F_GetLeaf f p = Ok h.
Proof. exact (C07_lem H f us h p). Qed.
Print Assumptions C07_position_map.

Example C07_example : exists f us, reachable ex_H f us /\ 3 < f_n f /\ F_GetLeaf f 3 = Ok 16.
Proof.
  destruct ex_history as (_ & u0 & u & f' & _ & _ & _ & _ & _ & Hr & [Hs Hl] & Hn). exists f', [u; u0]. rewrite Hn. split; [done|]. split; [done|].
  by rewrite (Hl 3).
Qed.

(** C08: Undo with the batch of the last Modify restores the forest. *)
Theorem C08_undo H f us (adds : list leaf) ts u f' :
  reachable H f us -> f_n f + size adds < 2 ^ 31 + size ts ->
  F_ModifyUndo H f adds ts = Ok (true, Some u, f') ->
  exists f'', F_Undo H f' u = Ok (true, f'') /\ same_forest f f''.
Proof. exact (C08_lem H f us adds ts u f'). Qed.
Print Assumptions C08_undo.

Example C08_example : exists f us u f', reachable ex_H f us /\ f_n f + size ex_adds < 2 ^ 31 + size ex_ts /\
  F_ModifyUndo ex_H f ex_adds ex_ts = Ok (true, Some u, f').
Proof. destruct ex_history as (f & u0 & u & f' & Hr & _ & Hn & _ & E & _). exists f, [u0], u, f'. by rewrite Hn. Qed.

(** C09: any number of modifications can be undone, last one first. *)
Theorem C09_undo_stack H f us0 us f' : reachable H f us0 -> modifies H f us f' ->
  exists f'', undo_all H f' us = Ok (Some f'') /\ same_forest f f''.
Proof. exact (C09_lem H f us0 us f'). Qed.
Print Assumptions C09_undo_stack.

Example C09_example : exists us0 f' u1 u2, reachable ex_H (RamForest_new 0) us0 /\
  modifies ex_H (RamForest_new 0) [u2; u1] f' /\ holds_leaves f' ex_ls'.
Proof. exact ex_modifies. Qed.

(** C10: Commit, with any previous file content, and reopening give the forest
    back. *)
Theorem C10_commit_restore H f us old :
  reachable H f us -> (forall a b, H a b < 256 ^ 32) ->
  (forall i h, i < f_n f -> F_GetLeaf f i = Ok h -> h < 256 ^ 32) ->
  exists bytes f', F_Commit f old = Ok bytes /\ F_Restore bytes = Ok f' /\ same_forest f f'.
Proof. exact (C10_lem H f us old). Qed.
Print Assumptions C10_commit_restore.

(** It never works beyond: from 2^31 leaves on, the [int] loop counter of Commit
    overflows. *)
Theorem C10_bound_sharp f old bytes : int_max < f_n f -> F_Commit f old <> Ok bytes.
Proof. exact (C10_bound_lem f old bytes). Qed.
Print Assumptions C10_bound_sharp.

Example C10_bound_example : int_max < f_n (RamForest_new (2 ^ 31)).
Proof. exact (eq_refl Lt). Qed.

Example C10_example : exists f us, reachable ex_H f us /\ (forall a b, ex_H a b < 256 ^ 32) /\
  (forall i h, i < f_n f -> F_GetLeaf f i = Ok h -> h < 256 ^ 32) /\ holds_leaves f ex_ls.
Proof.
  destruct ex_history as (f & u0 & _ & _ & Hr & Hh & Hn & _). exists f, [u0]. split; [done|].
  split; [exact ex_H_fits|]. split; [|done]. intros i h. exact (ex_leaf_fits f i h Hh).
Qed.

(** C24: Transform only swaps existing nodes of the row it says, and
    UndoTransform lists the same swaps as ranges of leaves. *)
Theorem C24_transform n R ts : n <= 2 ^ 62 -> is_height n R -> valid_targets n ts ->
  exists rows us, Transform n ts = Ok rows /\ UndoTransform n ts = Ok us /\ size rows <= R /\
    (forall c ss s, rows !! c = Some ss -> s ∈ ss -> exists i j, node n (N.of_nat c) i /\ node n (N.of_nat c) j /\ i <> j /\
       m_from s = enc R (N.of_nat c) i /\ m_to s = enc R (N.of_nat c) j) /\
    Forall2 (fun s u => exists c i j, node n c i /\ node n c j /\ i <> j /\ m_from s = enc R c i /\ m_to s = enc R c j /\
       m_from u = i * 2 ^ c /\ m_to u = j * 2 ^ c /\ (if m_is_range_swap u then m_range u else 1) = 2 ^ c) (mjoin rows) us.
Proof. exact (C24_lem n R ts). Qed.
Print Assumptions C24_transform.

Example C24_example : 7 <= 2 ^ 62 /\ is_height 7 3 /\ valid_targets 7 ex_ts /\
  match Transform 7 ex_ts with Ok rows => mjoin rows <> [] | _ => False end.
Proof. split; [done|]. split; [apply PosFacts.NumRows_height; vm_compute; reflexivity|]. split; [exact ex_valid|]. vm_compute; discriminate. Qed.

(** C36: adding in two batches is adding in one. *)
Theorem C36_batches H f us (l1 l2 : list leaf) ts :
  reachable H f us -> f_n f + size l1 + size l2 < 2 ^ 31 + size ts ->
  (forall g, F_Modify H f (l1 ++ l2) ts = Ok (true, g) ->
     exists g1 g2, F_Modify H f l1 ts = Ok (true, g1) /\ F_Modify H g1 l2 [] = Ok (true, g2) /\ same_forest g g2) /\
  (forall g1 g2, F_Modify H f l1 ts = Ok (true, g1) -> F_Modify H g1 l2 [] = Ok (true, g2) ->
     exists g, F_Modify H f (l1 ++ l2) ts = Ok (true, g) /\ same_forest g g2).
Proof. exact (C36_lem H f us l1 l2 ts). Qed.
Print Assumptions C36_batches.

Example C36_example : exists f us g, reachable ex_H f us /\ f_n f + size [(20, false)] + size [(21, true)] < 2 ^ 31 + size ex_ts /\
  F_Modify ex_H f ([(20, false)] ++ [(21, true)]) ex_ts = Ok (true, g).
Proof. destruct ex_history as (f & u0 & u & f' & Hr & _ & Hn & E & _). exists f, [u0], f'. by rewrite Hn. Qed.

(** C37 for RamForest: operator== compares the leaf sequences. *)
Theorem C37_forest_eq H f us g vs : reachable H f us -> reachable H g vs ->
  F_eqb f g = true <-> exists ls, holds_leaves f ls /\ holds_leaves g ls.
Proof. exact (C37_lem H f us g vs). Qed.
Print Assumptions C37_forest_eq.

Example C37_forest_example : exists f us g vs, reachable ex_H f us /\ reachable ex_H g vs /\ f_n f = 7 /\ f_n g = 6.
Proof. destruct ex_history as (f & u0 & u & f' & Hr & _ & Hn & _ & _ & Hr' & _ & Hn'). by exists f, [u0], f', [u; u0]. Qed.

(** C38: adding a leaf twice, or one that is still there, stops at an assertion. *)
Theorem C38_duplicates H f us ls (adds : list leaf) ts :
  reachable H f us -> holds_leaves f ls -> size ls + size adds < 2 ^ 31 + size ts ->
  valid_targets (size ls) ts -> ~ NoDup (survivors ls ts ++ adds.*1) ->
  F_Modify H f adds ts = Abort /\ F_ModifyUndo H f adds ts = Abort.
Proof. exact (C38_lem H f us ls adds ts). Qed.
Print Assumptions C38_duplicates.

Example C38_example : exists f us, reachable ex_H f us /\ holds_leaves f ex_ls /\ valid_targets (size ex_ls) ex_ts /\
  ~ NoDup (survivors ex_ls ex_ts ++ [(20, true); (13, false)].*1) /\ NoDup (survivors ex_ls ex_ts ++ [(20, true); (12, false)].*1).
Proof.
  destruct ex_history as (f & u0 & _ & _ & Hr & Hh & _). exists f, [u0]. split; [done|]. split; [done|]. split; [exact ex_valid|].
  split; apply (bool_decide_unpack _); by vm_compute.
Qed.
