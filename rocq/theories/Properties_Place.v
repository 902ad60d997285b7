(** * Properties of the positions that the roots carry: C75 *)
From Verif Require Import Base StateModel CodecModel ForestModel PollardModel PosSpec MerkleSpec ForestSpec ProofSpec PollardSpec ForestExamples PlaceSpec PlaceProps PlaceExact.

(** C75: PrintRoots shows each root with its position.  This is false.  With two leaves
    the only root carries position 1; it is at position 2. *)
Theorem C75_two_leaves_refuted : exists (H : hash -> hash -> hash) f p, reachable H f [] /\ synced H f p /\ f_n f = 2 /\ F_root_positions f = [1] /\ P_root_positions p = [1] /\
  is_height 2 1 /\ placed 2 1 [2].
Proof. exact refuted_two. Qed.
Print Assumptions C75_two_leaves_refuted.

(** After the deletion of four of eight leaves the root carries the position that it had
    in the forest of eight leaves. *)
Theorem C75_deleted_refuted : exists (H : hash -> hash -> hash) f p, reachable H f [] /\ synced H f p /\ f_n f = 4 /\ F_root_positions f = [12] /\ P_root_positions p = [12] /\
  is_height 4 2 /\ placed 4 2 [6].
Proof. exact refuted_deleted. Qed.
Print Assumptions C75_deleted_refuted.

(** What holds.  A deletion leaves the positions of the remaining roots in a forest of
    the old height; so they are right exactly if the height is the same or at most one
    leaf remains. *)
Theorem C75_forest_deleted_partial H f us ts f' R R' : reachable H f us ->
  F_Modify H f [] ts = Ok (true, f') \/ (exists u, F_ModifyUndo H f [] ts = Ok (true, u, f')) -> ts <> [] -> is_height (f_n f) R -> is_height (f_n f') R' ->
  placed (f_n f') R (F_root_positions f') /\ (placed (f_n f') R' (F_root_positions f') <-> R' = R \/ f_n f' <= 1).
Proof. exact (F_place_deleted H f us ts f' R R'). Qed.
Print Assumptions C75_forest_deleted_partial.
Theorem C75_pollard_deleted_partial H f p bp ths v p' R R' : synced H f p -> verifies H f p bp ths true v -> P_Modify H v [] (m_sorted_targets bp) = Ok (true, p') -> m_sorted_targets bp <> [] ->
  is_height (p_n v) R -> is_height (p_n p') R' ->
  placed (p_n p') R (P_root_positions p') /\ (placed (p_n p') R' (P_root_positions p') <-> R' = R \/ p_n p' <= 1).
Proof. exact (P_place_deleted H f p bp ths v p' R R'). Qed.
Print Assumptions C75_pollard_deleted_partial.

(** A modification makes or keeps the positions right, except with two leaves, if its
    deletions keep the height or its additions raise it.  Without deletions the
    positions have to be right before. *)
Theorem C75_forest_step_partial H f us (adds : list leaf) ts f' R R1 R' : reachable H f us -> f_n f + size adds < 2 ^ 31 + size ts ->
  F_Modify H f adds ts = Ok (true, f') \/ (exists u, F_ModifyUndo H f adds ts = Ok (true, u, f')) ->
  is_height (f_n f) R -> is_height (f_n f - size ts) R1 -> is_height (f_n f') R' ->
  ((ts = [] -> placed (f_n f) R (F_root_positions f) \/ f_n f = 2) /\ (R1 = R \/ f_n f <= size ts + 1)) \/ R1 <> R' ->
  placed (f_n f') R' (F_root_positions f') \/ f_n f' = 2.
Proof. exact (F_place_step H f us adds ts f' R R1 R'). Qed.
Print Assumptions C75_forest_step_partial.
Theorem C75_pollard_step_partial H f p bp ths v (adds : list leaf) p' R R1 R' : synced H f p -> verifies H f p bp ths true v -> f_n f + size adds < 2 ^ 31 + size (m_sorted_targets bp) ->
  P_Modify H v adds (m_sorted_targets bp) = Ok (true, p') -> let ts := m_sorted_targets bp in
  is_height (p_n v) R -> is_height (p_n v - size ts) R1 -> is_height (p_n p') R' ->
  ((ts = [] -> placed (p_n v) R (P_root_positions v) \/ p_n v = 2) /\ (R1 = R \/ p_n v <= size ts + 1)) \/ R1 <> R' ->
  placed (p_n p') R' (P_root_positions p') \/ p_n p' = 2.
Proof. exact (P_place_step H f p bp ths v adds p' R R1 R'). Qed.
Print Assumptions C75_pollard_step_partial.

(** Exactly which positions the roots carry after any modification: a deletion leaves
    those of the old height; with additions, trees that stay keep what their roots carry
    if the height stays, and all other roots carry their positions; two leaves are the
    exception. *)
Theorem C75_forest_exact H f us (adds : list leaf) ts f' R R1 R' : reachable H f us -> f_n f + size adds < 2 ^ 31 + size ts ->
  F_Modify H f adds ts = Ok (true, f') \/ (exists u, F_ModifyUndo H f adds ts = Ok (true, u, f')) ->
  is_height (f_n f) R -> is_height (f_n f - size ts) R1 -> is_height (f_n f') R' ->
  exists ps, (ts = [] -> ps = F_root_positions f) /\ (ts <> [] -> placed (f_n f - size ts) R ps) /\
    (adds = [] -> F_root_positions f' = ps) /\
    (adds <> [] -> f_n f' = 2 -> F_root_positions f' = [1]) /\
    (adds <> [] -> f_n f' <> 2 -> carried (f_n f - size ts) (f_n f') R1 R' ps (F_root_positions f')).
Proof. exact (F_place_exact H f us adds ts f' R R1 R'). Qed.
Print Assumptions C75_forest_exact.
Theorem C75_pollard_exact H f p bp ths v (adds : list leaf) p' R R1 R' : synced H f p -> verifies H f p bp ths true v -> f_n f + size adds < 2 ^ 31 + size (m_sorted_targets bp) ->
  P_Modify H v adds (m_sorted_targets bp) = Ok (true, p') -> let ts := m_sorted_targets bp in
  is_height (p_n v) R -> is_height (p_n v - size ts) R1 -> is_height (p_n p') R' ->
  exists ps, (ts = [] -> ps = P_root_positions v) /\ (ts <> [] -> placed (p_n v - size ts) R ps) /\
    (adds = [] -> P_root_positions p' = ps) /\
    (adds <> [] -> p_n p' = 2 -> P_root_positions p' = [1]) /\
    (adds <> [] -> p_n p' <> 2 -> carried (p_n v - size ts) (p_n p') R1 R' ps (P_root_positions p')).
Proof. exact (P_place_exact H f p bp ths v adds p' R R1 R'). Qed.
Print Assumptions C75_pollard_exact.

(** Hence exactly when they are right after a modification: not with two leaves;
    otherwise if the deletions keep the height or leave at most one leaf, or if the
    additions fill the lower forest up. *)
Theorem C75_forest_right H f us (adds : list leaf) ts f' R R1 R' : reachable H f us -> f_n f + size adds < 2 ^ 31 + size ts ->
  F_Modify H f adds ts = Ok (true, f') \/ (exists u, F_ModifyUndo H f adds ts = Ok (true, u, f')) ->
  is_height (f_n f) R -> is_height (f_n f - size ts) R1 -> is_height (f_n f') R' ->
  ts <> [] \/ (adds <> [] /\ (placed (f_n f) R (F_root_positions f) \/ f_n f = 2)) ->
  placed (f_n f') R' (F_root_positions f') <-> f_n f' <> 2 /\ (R1 = R \/ f_n f - size ts <= 1 \/ (adds <> [] /\ 2 ^ R1 <= f_n f')).
Proof. exact (F_place_right H f us adds ts f' R R1 R'). Qed.
Print Assumptions C75_forest_right.
Theorem C75_pollard_right H f p bp ths v (adds : list leaf) p' R R1 R' : synced H f p -> verifies H f p bp ths true v -> f_n f + size adds < 2 ^ 31 + size (m_sorted_targets bp) ->
  P_Modify H v adds (m_sorted_targets bp) = Ok (true, p') -> let ts := m_sorted_targets bp in
  is_height (p_n v) R -> is_height (p_n v - size ts) R1 -> is_height (p_n p') R' ->
  ts <> [] \/ (adds <> [] /\ (placed (p_n v) R (P_root_positions v) \/ p_n v = 2)) ->
  placed (p_n p') R' (P_root_positions p') <-> p_n p' <> 2 /\ (R1 = R \/ p_n v - size ts <= 1 \/ (adds <> [] /\ 2 ^ R1 <= p_n p')).
Proof. exact (P_place_right H f p bp ths v adds p' R R1 R'). Qed.
Print Assumptions C75_pollard_right.

(** Undo and Restore set the right positions, whatever they were before; so does the
    constructor of a pollard from roots. *)
Theorem C75_forest_undo_partial H f u us f' R : reachable H f (u :: us) -> F_Undo H f u = Ok (true, f') -> is_height (f_n f') R -> placed (f_n f') R (F_root_positions f').
Proof. exact (F_place_undo H f u us f' R). Qed.
Print Assumptions C75_forest_undo_partial.
Theorem C75_forest_restore_partial bytes f R : F_Restore bytes = Ok f -> f_n f <= 2 ^ 62 -> is_height (f_n f) R -> placed (f_n f) R (F_root_positions f).
Proof. exact (F_place_restore bytes f R). Qed.
Print Assumptions C75_forest_restore_partial.
Theorem C75_pollard_restore_partial hs n p R : Pollard_restore hs n = Ok p -> n <= 2 ^ 62 -> is_height n R -> placed n R (P_root_positions p).
Proof. exact (P_place_restore (λ a _, a) hs n p R). Qed.
Print Assumptions C75_pollard_restore_partial.

(** Verify, whether it accepts or rejects, and Prune keep right positions. *)
Theorem C75_pollard_verify_partial H p bp ths b p' R : p_n p <= 2 ^ 62 -> is_height (p_n p) R -> P_Verify H p bp ths = Ok (b, p') -> placed (p_n p) R (P_root_positions p) ->
  placed (p_n p) R (P_root_positions p').
Proof. exact (P_place_verify H p bp ths b p' R). Qed.
Print Assumptions C75_pollard_verify_partial.
Theorem C75_pollard_prune_partial p p' : P_Prune p = Ok p' -> P_root_positions p' = P_root_positions p /\ p_n p' = p_n p.
Proof. exact (P_place_prune p p'). Qed.
Print Assumptions C75_pollard_prune_partial.

(** Eight leaves; one is deleted and one added: the height stays 3 and the position 14.
    With four deleted the height becomes 2. *)
Example C75_step_example : exists f p bp v f' p', reachable ex_H f [] /\ synced ex_H f p /\ verifies ex_H f p bp [11] true v /\ m_sorted_targets bp = [1] /\
    F_Modify ex_H f [(20, false)] [1] = Ok (true, f') /\ P_Modify ex_H v [(20, false)] [1] = Ok (true, p') /\ reachable ex_H f' [] /\ synced ex_H f' p' /\
    f_n f = 8 /\ p_n v = 8 /\ f_n f' = 8 /\ p_n p' = 8 /\
    F_root_positions f = [14] /\ P_root_positions p = [14] /\ P_root_positions v = [14] /\ F_root_positions f' = [14] /\ P_root_positions p' = [14].
Proof. exact histB. Qed.
Example C75_deleted_example : exists f p bp v f' p', reachable ex_H f [] /\ synced ex_H f p /\ verifies ex_H f p bp [14; 15; 16; 17] true v /\ m_sorted_targets bp = [4; 5; 6; 7] /\
    F_Modify ex_H f [] [4; 5; 6; 7] = Ok (true, f') /\ P_Modify ex_H v [] [4; 5; 6; 7] = Ok (true, p') /\ reachable ex_H f' [] /\ synced ex_H f' p' /\
    f_n f = 8 /\ p_n v = 8 /\ f_n f' = 4 /\ p_n p' = 4 /\
    F_root_positions f = [14] /\ P_root_positions p = [14] /\ P_root_positions v = [14] /\ F_root_positions f' = [12] /\ P_root_positions p' = [12].
Proof. exact histA. Qed.
Example C75_heights_example : is_height 8 3 /\ is_height 7 3 /\ is_height 4 2 /\ placed 8 3 [14].
Proof. exact heights_example. Qed.
(** Nine leaves; four are deleted and one is added: the first tree of six leaves carries
    24, its position with nine leaves, and not 12; the second one carries 10. *)
Example C75_exact_example : exists f p bp v f' p', reachable ex_H f [] /\ synced ex_H f p /\ verifies ex_H f p bp [14; 15; 16; 17] true v /\ m_sorted_targets bp = [4; 5; 6; 7] /\
    F_Modify ex_H f [(20, false)] [4; 5; 6; 7] = Ok (true, f') /\ P_Modify ex_H v [(20, false)] [4; 5; 6; 7] = Ok (true, p') /\ reachable ex_H f' [] /\ synced ex_H f' p' /\
    f_n f = 9 /\ p_n v = 9 /\ f_n f' = 6 /\ p_n p' = 6 /\
    F_root_positions f = [28; 8] /\ P_root_positions p = [28; 8] /\ P_root_positions v = [28; 8] /\ F_root_positions f' = [24; 10] /\ P_root_positions p' = [24; 10].
Proof. exact histD. Qed.
Example C75_exact_heights : is_height 9 4 /\ is_height 5 3 /\ is_height 6 3 /\ placed 5 4 [24; 4] /\ placed 6 3 [12; 10].
Proof. exact exact_example. Qed.
