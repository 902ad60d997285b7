(** * Properties of Pollard: C25 to C32 and C40 *)
From Verif Require Import Base StateModel CodecModel ForestModel PollardModel PosSpec MerkleSpec ForestSpec PollardSpec PollardProps ForestExamples PollardRefute PollardExamples.

(** C25: a pollard and a forest with a common history have the same roots and the
    same number of leaves, and a verified deletion never fails. *)
Theorem C25_same_roots H f p : synced H f p -> P_Roots p = Ok (F_Roots f) /\ p_n p = f_n f.
Proof. exact (C25_lem H f p). Qed.
Print Assumptions C25_same_roots.

Theorem C25_progress H f p bp ths p1 (adds : list leaf) : synced H f p -> verifies H f p bp ths true p1 ->
  f_n f + size adds < 2 ^ 31 + size (m_sorted_targets bp) -> exists p', P_Modify H p1 adds (m_sorted_targets bp) = Ok (true, p').
Proof. exact (C25_progress_lem H f p bp ths p1 adds). Qed.
Print Assumptions C25_progress.

Example C25_example : exists f p bp v f' p', synced ex_H f p /\ holds_leaves f ex_ls /\ F_Prove f [11; 12; 15] = Ok (Some bp) /\ m_sorted_targets bp = ex_ts /\
  P_Verify ex_H p bp [11; 12; 15] = Ok (true, v) /\ verifies ex_H f p bp [11; 12; 15] true v /\ F_Modify ex_H f ex_adds ex_ts = Ok (true, f') /\
  P_Modify ex_H v ex_adds ex_ts = Ok (true, p') /\ synced ex_H f' p' /\ holds_leaves f' ex_ls'.
Proof. exact ex_sync. Qed.

(** C26: every proof made by the forest is accepted, whatever the pollard has
    cached. *)
Theorem C26_accepts H f p hs bp ths : synced H f p -> F_Prove f hs = Ok (Some bp) ->
  Forall2 (λ t h, F_GetLeaf f t = Ok h) (m_sorted_targets bp) ths ->
  exists p', P_Verify H p bp ths = Ok (true, p') /\ verifies H f p bp ths true p' /\ synced H f p'.
Proof. exact (C26_lem H f p hs bp ths). Qed.
Print Assumptions C26_accepts.

Example C26_example : exists f p bp, synced ex_H f p /\ F_Prove f [11; 12; 15] = Ok (Some bp) /\
  Forall2 (λ t h, F_GetLeaf f t = Ok h) (m_sorted_targets bp) [11; 12; 15].
Proof.
  destruct ex_sync as (f & p & bp & v & f' & p' & H1 & [Hn Hg] & H3 & H4 & _). exists f, p, bp. split; [done|]. split; [done|]. rewrite H4.
  repeat constructor; by apply Hg.
Qed.

(** C27: an accepted proof is right: every target hash is the leaf at its
    position; or else the resulting pollard shows a collision of the hash. *)
Theorem C27_sound H f p bp ths p' ls : synced H f p -> holds_leaves f ls -> proof_wf bp -> P_Verify H p bp ths = Ok (true, p') ->
  shows_collision H p' ls \/ Forall2 (λ t h, t < f_n f /\ F_GetLeaf f t = Ok h) (m_sorted_targets bp) ths.
Proof. exact (C27_lem H f p bp ths p' ls). Qed.
Print Assumptions C27_sound.

(** Both ways to accept occur: the honest proof of [C25_example], and here, with a
    collision, the leaf 15 in a forest over 10 and 11. *)
Example C27_example : exists f p v w, synced ex_H f p /\ holds_leaves f [10; 11] /\
  P_Verify ex_H p (BatchProof [0] [8]) [15] = Ok (true, v) /\ P_Verify ex_H p (BatchProof [0] [9]) [15] = Ok (false, w).
Proof. exact ex_forge. Qed.

(** C28: Verify changes neither the roots nor the number of leaves, and whatever
    it stores are hashes of the forest, unless a collision shows. *)
Theorem C28_no_poison H f p bp ths b p' ls : synced H f p -> holds_leaves f ls -> proof_wf bp -> P_Verify H p bp ths = Ok (b, p') ->
  P_Roots p' = P_Roots p /\ p_n p' = p_n p /\ (stores_only H p' ls \/ (b = true /\ shows_collision H p' ls)).
Proof. exact (C28_lem H f p bp ths b p' ls). Qed.
Print Assumptions C28_no_poison.

Example C28_example : exists f p bp ths v w, synced ex_H f p /\ holds_leaves f [10; 11] /\ proof_wf bp /\
  P_Verify ex_H p (BatchProof [0] [8]) [15] = Ok (true, v) /\ P_Verify ex_H p bp ths = Ok (false, w).
Proof. destruct ex_forge as (f & p & v & w & H1 & H2 & H3 & H4). by exists f, p, (BatchProof [0] [9]), [15], v, w. Qed.

(** C29, what remains of it: a rejected proof leaves the position map, the roots,
    the number of leaves and every stored hash as they were.  (Leaves may be
    marked as remembered: [C29_failed_verify_refuted].) *)
Theorem C29_rejected_partial H f p bp ths p' ls : synced H f p -> holds_leaves f ls -> proof_wf bp -> P_Verify H p bp ths = Ok (false, p') ->
  p_posmap p' = p_posmap p /\ P_Roots p' = P_Roots p /\ p_n p' = p_n p /\
  forall R r i, is_height (size ls) R -> node (size ls) r i -> P_Read p' (enc R r i) = P_Read p (enc R r i).
Proof. exact (C29_pos_lem H f p bp ths p' ls). Qed.
Print Assumptions C29_rejected_partial.

Example C29_example : exists f p bp ths w, synced ex_H f p /\ holds_leaves f [10; 11] /\ proof_wf bp /\ P_Verify ex_H p bp ths = Ok (false, w).
Proof. destruct ex_forge as (f & p & v & w & H1 & H2 & H3 & H4). by exists f, p, (BatchProof [0] [9]), [15], w. Qed.

(** C30, what remains of it: right after a proof was accepted, the pollard proves
    any of its targets, and the proof is the one the forest makes. *)
Theorem C30_prove_partial H f p bp ths p' hs : synced H f p -> verifies H f p bp ths true p' -> (forall h, h ∈ hs -> h ∈ ths) ->
  P_Prove p' hs = F_Prove f hs.
Proof. exact (C30_pos_lem H f p bp ths p' hs). Qed.
Print Assumptions C30_prove_partial.

Example C30_example : exists f p bp v, synced ex_H f p /\ holds_leaves f ex_ls /\ verifies ex_H f p bp [11; 12; 15] true v /\ forall h, h ∈ [15; 11] -> h ∈ [11; 12; 15].
Proof.
  destruct ex_sync as (f & p & bp & v & f' & p' & H1 & H2 & H3 & H4 & _ & H5 & _). exists f, p, bp, v. split; [done|]. split; [done|]. split; [done|].
  apply Forall_forall, (bool_decide_unpack _). by vm_compute.
Qed.

(** C31: Prune leaves exactly the roots; the pollard stays in step with the
    forest, so that C25 to C28 apply to it. *)
Theorem C31_prune H f p : synced H f p -> exists p', P_Prune p = Ok p' /\ P_Roots p' = Ok (F_Roots f) /\ p_n p' = f_n f /\
  P_CountNodes p' = size (F_Roots f) /\ P_NumCachedLeaves p' = 0 /\
  (forall R r i, is_height (f_n f) R -> node (f_n f) r i -> ~ is_root (f_n f) r i -> P_Read p' (enc R r i) = Ok None) /\ synced H f p'.
Proof. exact (C31_lem H f p). Qed.
Print Assumptions C31_prune.

Example C31_example : exists f p, synced ex_H f p /\ holds_leaves f ex_ls'.
Proof. destruct ex_sync as (f & p & bp & v & f' & p' & _ & _ & _ & _ & _ & _ & _ & _ & H1 & H2). by exists f', p'. Qed.

(** C32: a pollard built from the roots of a forest is in step with it. *)
Theorem C32_restore H f us : reachable H f us ->
  exists p, Pollard_restore (F_Roots f) (f_n f) = Ok p /\ P_Roots p = Ok (F_Roots f) /\ p_n p = f_n f /\ synced H f p.
Proof. exact (C32_lem H f us). Qed.
Print Assumptions C32_restore.

Theorem C32_from_pollard H f p : synced H f p -> exists rs q, P_Roots p = Ok rs /\ Pollard_restore rs (p_n p) = Ok q /\ synced H f q.
Proof. exact (C32_pollard_lem H f p). Qed.
Print Assumptions C32_from_pollard.

Example C32_example : exists f us, reachable ex_H f us /\ holds_leaves f ex_ls'.
Proof. destruct ex_history as (_ & u0 & u & f' & _ & _ & _ & _ & _ & Hr & Hh & _). by exists f', [u; u0]. Qed.

(** C40 is false: a proof that lacks hashes makes Verify run past its end, when a
    stored node has the all-zero hash. *)
Theorem C40_verify_total_refuted H : exists f p bp ths, F_Modify H (RamForest_new 0) adds40 [] = Ok (true, f) /\
  P_Modify H (Pollard_new 0) adds40 [] = Ok (true, p) /\ m_sorted_targets bp = sortN (m_targets bp) /\ P_Verify H p bp ths = UB.
Proof. exact (C40_refuted_lem H). Qed.
Print Assumptions C40_verify_total_refuted.

(** It is the only way to fail: without stored all-zero hashes, Verify returns
    for every proof and all target hashes. *)
Theorem C40_verify_total_partial H f p bp ths ls : synced H f p -> holds_leaves f ls -> proof_wf bp ->
  (forall R r i, is_height (size ls) R -> node (size ls) r i -> P_Read p (enc R r i) <> Ok (Some zero_hash)) ->
  exists b p', P_Verify H p bp ths = Ok (b, p').
Proof. exact (C28_total_lem H f p bp ths ls). Qed.
Print Assumptions C40_verify_total_partial.

Example C40_example : exists f p, synced ex_H f p /\ holds_leaves f [10; 11] /\
  forall R r i, is_height 2 R -> node 2 r i -> P_Read p (enc R r i) <> Ok (Some zero_hash).
Proof. exact ex_nonzero. Qed.
