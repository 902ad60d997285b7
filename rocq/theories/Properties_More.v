(** * Properties across the parts: C33, C45 to C52 *)
From Verif Require Import Base StateModel CodecModel ForestModel PollardModel PosSpec MerkleSpec CodecSpec ForestSpec ProofSpec PollardSpec WireFacts ForestMore PollardMore ForestExamples PollardExamples MoreExamples.

(** C33, what remains of it: deleting leaves told to remember works, with the right
    roots, if moreover the nodes above them are stored.  (The nodes needed to prove
    them always are, C43; the ones computed from them need not be.) *)
Theorem C33_modify_cached_partial H f p lo hi (adds : list leaf) ts f' : recalls H f p lo hi ->
  (forall t, t ∈ ts -> exists h, F_GetLeaf f t = Ok h /\ h ∈ lo) ->
  (forall R r i, is_height (f_n f) R -> computed (f_n f) ts r i -> exists v, P_Read p (enc R r i) = Ok (Some v)) ->
  f_n f + size adds < 2 ^ 31 + size ts -> F_Modify H f adds ts = Ok (true, f') ->
  exists p', P_Modify H p adds ts = Ok (true, p') /\ P_Roots p' = Ok (F_Roots f') /\ p_n p' = f_n f'.
Proof. exact (C33_partial_lem H f p lo hi adds ts f'). Qed.
Print Assumptions C33_modify_cached_partial.

Example C33_partial_example : exists f p f', recalls ex_H f p {[10; 11; 12; 13]} {[10; 11; 12; 13]} /\
  (forall t, t ∈ [0; 1] -> exists h, F_GetLeaf f t = Ok h /\ h ∈ ({[10; 11; 12; 13]} : gset hash)) /\
  (forall R r i, is_height (f_n f) R -> computed (f_n f) [0; 1] r i -> exists v, P_Read p (enc R r i) = Ok (Some v)) /\
  f_n f + size [(20, false)] < 2 ^ 31 + size [0; 1] /\ F_Modify ex_H f [(20, false)] [0; 1] = Ok (true, f').
Proof. exact (ex_modify_cached ex_H). Qed.

(** C45: a proof made by the forest, sent as bytes and read into a new object, is
    accepted by the pollard. *)
Theorem C45_wire_proof H f p hs bp ths : synced H f p -> (forall a b, H a b < 256 ^ 32) ->
  (forall i h, i < f_n f -> F_GetLeaf f i = Ok h -> h < 256 ^ 32) -> F_Prove f hs = Ok (Some bp) ->
  8 + 4 * size (m_targets bp) + 32 * size (m_proof bp) < 2 ^ 31 ->
  Forall2 (λ t h, F_GetLeaf f t = Ok h) (m_sorted_targets bp) ths ->
  exists bytes bq p', bp_Serialize bp = Ok bytes /\ bp_Unserialize BatchProofNull bytes = Ok (true, bq) /\
    P_Verify H p bq ths = Ok (true, p') /\ synced H f p'.
Proof. exact (wire_proof_lem H f p hs bp ths). Qed.
Print Assumptions C45_wire_proof.

Example C45_example : exists f p bp, synced ex_H f p /\ (forall a b, ex_H a b < 256 ^ 32) /\
  (forall i h, i < f_n f -> F_GetLeaf f i = Ok h -> h < 256 ^ 32) /\ F_Prove f [11; 12; 15] = Ok (Some bp) /\ m_sorted_targets bp = ex_ts.
Proof.
  destruct ex_sync as (f & p & bp & _ & _ & _ & Hs & Hh & E & Et & _). exists f, p, bp. split; [done|]. split; [exact ex_H_fits|]. split; [|done].
  intros i h. exact (ex_leaf_fits f i h Hh).
Qed.

(** C46: an undo batch sent as bytes and read into any object still undoes. *)
Theorem C46_wire_undo H f us (adds : list leaf) ts u f' v : reachable H f us -> f_n f + size adds < 2 ^ 31 + size ts ->
  (forall i h, i < f_n f -> F_GetLeaf f i = Ok h -> h < 256 ^ 32) -> 8 + 36 * size ts < 2 ^ 31 ->
  F_ModifyUndo H f adds ts = Ok (true, Some u, f') ->
  exists bytes w f'', ub_Serialize u = Ok bytes /\ ub_Unserialize v bytes = Ok (true, w) /\ F_Undo H f' w = Ok (true, f'') /\ same_forest f f''.
Proof. exact (wire_undo_lem H f us adds ts u f' v). Qed.
Print Assumptions C46_wire_undo.

Example C46_example : exists f us u f', reachable ex_H f us /\ f_n f + size ex_adds < 2 ^ 31 + size ex_ts /\
  (forall i h, i < f_n f -> F_GetLeaf f i = Ok h -> h < 256 ^ 32) /\ 8 + 36 * size ex_ts < 2 ^ 31 /\
  F_ModifyUndo ex_H f ex_adds ex_ts = Ok (true, Some u, f').
Proof.
  destruct ex_history as (f & u0 & u & f' & Hr & Hh & Hn & _ & E & _). exists f, [u0], u, f'. rewrite Hn. split; [done|]. split; [done|]. rewrite <- Hn.
  split; [|split; [done|exact E]]. intros i h. exact (ex_leaf_fits f i h Hh).
Qed.

(** C47: an undo batch records the number of additions, the targets and exactly
    the deleted leaves. *)
Theorem C47_undo_contents H f us ls (adds : list leaf) ts u f' : reachable H f us -> holds_leaves f ls -> f_n f + size adds < 2 ^ 31 + size ts ->
  F_ModifyUndo H f adds ts = Ok (true, Some u, f') ->
  exists hs, u = UndoBatch (size adds) ts hs /\ hs ≡ₚ (leaf_at ls <$> ts).
Proof. exact (undo_contents_lem H f us ls adds ts u f'). Qed.
Print Assumptions C47_undo_contents.

Example C47_example : exists f us u f', reachable ex_H f us /\ holds_leaves f ex_ls /\ f_n f + size ex_adds < 2 ^ 31 + size ex_ts /\
  F_ModifyUndo ex_H f ex_adds ex_ts = Ok (true, Some u, f') /\ (leaf_at ex_ls <$> ex_ts) = [11; 12; 15].
Proof. destruct ex_history as (f & u0 & u & f' & Hr & Hh & Hn & _ & E & _). exists f, [u0], u, f'. rewrite Hn. done. Qed.

(** C48: a proof has one position per leaf, and at most one hash per leaf and row;
    never more hashes than the forest has leaves. *)
Theorem C48_proof_size H f us hs bp R : reachable H f us -> is_height (f_n f) R -> F_Prove f hs = Ok (Some bp) ->
  size (m_targets bp) = size hs /\ size (m_proof bp) <= size hs * R /\ size (m_proof bp) <= f_n f.
Proof. exact (proof_size_lem H f us hs bp R). Qed.
Print Assumptions C48_proof_size.

Example C48_example : exists f us bp, reachable ex_H f us /\ is_height (f_n f) 3 /\ F_Prove f [11; 12; 15] = Ok (Some bp).
Proof. exact ex_proved. Qed.

(** C49 is false: Undo with a batch that does not belong to the forest need not
    report failure, and if it does the forest is changed already.  Both batches can
    be read from bytes. *)
Theorem C49_undo_foreign_refuted H : exists f u f' v, F_Modify H (RamForest_new 0) adds49 [] = Ok (true, f) /\
  F_Undo H f u = Ok (false, f') /\ f_n f = 2 /\ f_n f' = 1 /\ F_Undo H f v = UB /\
  (exists bytes w, ub_Unserialize w bytes = Ok (true, u)) /\ exists bytes w, ub_Unserialize w bytes = Ok (true, v).
Proof. exact (undo_refuted_lem H). Qed.
Print Assumptions C49_undo_foreign_refuted.

(** What remains of C49: a batch with valid positions that does not make the forest
    taller is undone to a consistent forest, from which deleting the positions leads
    back; it fails exactly if one of its hashes is already there. *)
Theorem C49_undo_foreign_partial H f us ls k ts hs R R' : reachable H f us -> holds_leaves f ls -> k <= size ls -> size hs = size ts ->
  let ls1 := take (N.to_nat (size ls - k)) ls in let n0 := size ls1 + size ts in
  n0 < 2 ^ 31 -> valid_targets n0 ts -> NoDup (ls1 ++ hs) -> is_height (size ls) R -> is_height n0 R' -> R' <= R ->
  exists f' ls0, F_Undo H f (UndoBatch k ts hs) = Ok (true, f') /\ holds_leaves f' ls0 /\ roots_of H ls0 (F_Roots f') /\
    ls0 ≡ₚ ls1 ++ hs /\ spec_remove ls0 ts = ls1.
Proof. exact (undo_any_lem H f us ls k ts hs R R'). Qed.
Print Assumptions C49_undo_foreign_partial.

Theorem C49_undo_present_partial H f us ls k ts hs : reachable H f us -> holds_leaves f ls -> k <= size ls -> size hs = size ts ->
  let ls1 := take (N.to_nat (size ls - k)) ls in let n0 := size ls1 + size ts in
  n0 < 2 ^ 31 -> valid_targets n0 ts -> ~ NoDup (ls1 ++ hs) -> exists f', F_Undo H f (UndoBatch k ts hs) = Ok (false, f').
Proof. exact (undo_dup_lem H f us ls k ts hs). Qed.
Print Assumptions C49_undo_present_partial.

Example C49_example : exists f us, reachable ex_H f us /\ holds_leaves f ex_ls /\ 2 <= size ex_ls /\
  let ls1 := take (N.to_nat (size ex_ls - 2)) ex_ls in
  size ls1 + size [1; 3] = 7 /\ valid_targets 7 [1; 3] /\ NoDup (ls1 ++ [90; 91]) /\ ~ NoDup (ls1 ++ [90; 12]) /\ is_height (size ex_ls) 3 /\ is_height 7 3.
Proof. exact ex_foreign. Qed.

(** C50: in whatever order the map is iterated, ComparePositionMap says whether the
    positions agree, provided that the other side has all the hashes. *)
Theorem C50_compare_partial H f us g vs es : reachable H f us -> reachable H g vs -> iterates es (f_posmap f) ->
  (forall i h, i < f_n f -> F_GetLeaf f i = Ok h -> exists j, j < f_n g /\ F_GetLeaf g j = Ok h) ->
  exists b, ComparePositionMap es (f_posmap g) = Ok b /\
    (b = true <-> forall i h, i < f_n f -> F_GetLeaf f i = Ok h -> i < f_n g /\ F_GetLeaf g i = Ok h).
Proof. exact (compare_forest_lem H f us g vs es). Qed.
Print Assumptions C50_compare_partial.

(** Exactly then it returns for every order of the iteration. *)
Theorem C50_compare_exact H f us g vs : reachable H f us -> reachable H g vs ->
  (forall es, iterates es (f_posmap f) -> exists b, ComparePositionMap es (f_posmap g) = Ok b) <->
  (forall i h, i < f_n f -> F_GetLeaf f i = Ok h -> exists j, j < f_n g /\ F_GetLeaf g j = Ok h).
Proof. exact (compare_exact_lem H f us g vs). Qed.
Print Assumptions C50_compare_exact.

Example C50_example : exists f us g vs, reachable ex_H f us /\ reachable ex_H g vs /\ f_n f = 2 /\ f_n g = 3 /\
  (forall i h, i < f_n f -> F_GetLeaf f i = Ok h -> exists j, j < f_n g /\ F_GetLeaf g j = Ok h) /\
  F_GetLeaf f 0 = Ok 10 /\ F_GetLeaf g 0 = Ok 11.
Proof. exact (ex_compare ex_H). Qed.

(** Otherwise it may dereference the end of the map; here it does for every order. *)
Theorem C50_compare_refuted H : exists f, F_Modify H (RamForest_new 0) adds49 [] = Ok (true, f) /\
  forall es, iterates es (f_posmap f) -> ComparePositionMap es (f_posmap (RamForest_new 0)) = UB.
Proof. exact (compare_refuted_lem H). Qed.
Print Assumptions C50_compare_refuted.

(** C51 is false: a RamForest constructed with a number of leaves can take no leaves,
    and Commit, which its destructor calls, stops at an assertion. *)
Theorem C51_new_with_leaves_refuted H : exists n, 0 < n /\ forall (adds : list leaf) old, n + size adds < 2 ^ 64 ->
  (forall b f', F_Modify H (RamForest_new n) adds [] <> Ok (b, f')) /\ F_Commit (RamForest_new n) old = Abort.
Proof. exact (new_forest_refuted_lem H). Qed.
Print Assumptions C51_new_with_leaves_refuted.

(** It is so for every number but zero, for which the forest can be used (C02). *)
Theorem C51_every_number H n (adds : list leaf) old : 0 < n -> n + size adds < 2 ^ 64 ->
  (forall b f', F_Modify H (RamForest_new n) adds [] <> Ok (b, f')) /\ F_Commit (RamForest_new n) old = Abort.
Proof. exact (new_forest_lem H n adds old). Qed.
Print Assumptions C51_every_number.

Example C51_example : 0 < 8 /\ 8 + size ex_adds < 2 ^ 64.
Proof. done. Qed.

(** C52: the pointers of a pollard form a forest: following them leads to nodes that
    exist, there are no cycles, and every node but the marker m_remember points to is
    held in exactly one place.  So reference counting frees every node no longer
    reachable. *)
Theorem C52_ownership H f p : synced H f p ->
  (forall l, live p l -> l = rem \/ is_Some (p_heap p !! l)) /\
  (forall l, live p l -> ~ tc (λ a b, exists lr, owns p a lr b) l l) /\
  (forall o o' l, l <> rem -> held p o l -> held p o' l -> o = o').
Proof. exact (ownership_lem H f p). Qed.
Print Assumptions C52_ownership.

Example C52_example : exists f p l l' lr, synced ex_H f p /\ l <> rem /\ live p l /\ owns p l lr l' /\ l' <> rem.
Proof. exact (ex_owned ex_H). Qed.
