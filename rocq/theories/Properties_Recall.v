(** * Properties of what a Pollard remembers: C30, C41 to C44 *)
From Verif Require Import Base StateModel CodecModel ForestModel PollardModel PosSpec MerkleSpec ForestSpec ProofSpec PollardSpec PollardRecall ForestExamples PollardRefute PollardExamples.

(** C41: CountNodes counts the positions of the forest that can be read from the
    pollard. *)
Theorem C41_count_nodes H f p R : synced H f p -> is_height (f_n f) R ->
  exists ps, NoDup ps /\ (forall pos, pos ∈ ps <-> exists r i h, node (f_n f) r i /\ pos = enc R r i /\ P_Read p pos = Ok (Some h)) /\ P_CountNodes p = size ps.
Proof. exact (C41_lem H f p R). Qed.
Print Assumptions C41_count_nodes.

Example C41_example : exists f p, synced ex_H f p /\ holds_leaves f ex_ls' /\ is_height (f_n f) 3.
Proof.
  destruct ex_recall as (f & p & bp & v & f' & p' & _ & _ & _ & _ & _ & _ & H1 & H2). exists f', p'. split; [by eapply recalls_synced|]. split; [done|]. destruct H2 as [-> _]. exact ex_height.
Qed.

(** C42: NumCachedLeaves is the number of leaves told to remember.  It may exceed
    it only because of rejected proofs. *)
Theorem C42_cached_leaves H f p lo hi : recalls H f p lo hi -> N.of_nat (base.size lo) <= P_NumCachedLeaves p <= N.of_nat (base.size hi).
Proof. exact (C42_lem H f p lo hi). Qed.
Print Assumptions C42_cached_leaves.

(** The bounds apply to every history. *)
Theorem C42_every_history H f p : synced H f p <-> exists lo hi, recalls H f p lo hi.
Proof. exact (recalls_iff H f p). Qed.
Print Assumptions C42_every_history.

Example C42_example : exists f p, recalls ex_H f p {[14; 21]} {[14; 21]} /\ holds_leaves f ex_ls' /\ P_NumCachedLeaves p = 2.
Proof. exact ex_cached. Qed.

(** C43: a leaf told to remember keeps its proof: every node needed to prove it is
    stored, with the hash it has in the forest. *)
Theorem C43_keeps_proof H f p lo hi t h : recalls H f p lo hi -> t < f_n f -> F_GetLeaf f t = Ok h -> h ∈ lo ->
  forall R r i, is_height (f_n f) R -> needed (f_n f) [t] r i -> exists v, P_Read p (enc R r i) = Ok (Some v) /\ F_Read f (enc R r i) = Ok v.
Proof. exact (C43_lem H f p lo hi t h). Qed.
Print Assumptions C43_keeps_proof.

Example C43_example : exists f p, recalls ex_H f p {[14; 21]} {[14; 21]} /\ 2 < f_n f /\ F_GetLeaf f 2 = Ok 14 /\ is_height (f_n f) 3 /\ needed (f_n f) [2] 0 3 /\ needed (f_n f) [2] 1 0.
Proof. exact ex_needed. Qed.

(** C30, what else remains of it: the pollard makes the same proofs as the forest
    for the leaves told to remember, as long as its position map has them right.
    (See C44 for when it has.) *)
Theorem C30_recall_partial H f p lo hi hs : recalls H f p lo hi -> (forall h, h ∈ hs -> h ∈ lo /\ p_posmap p !! h = f_posmap f !! h) ->
  P_Prove p hs = F_Prove f hs.
Proof. exact (C30_recall_lem H f p lo hi hs). Qed.
Print Assumptions C30_recall_partial.

Example C30_recall_example : exists f p, recalls ex_H f p {[14; 21]} {[14; 21]} /\ holds_leaves f ex_ls' /\ forall h, h ∈ [21] -> h ∈ ({[14; 21]} : gset hash) /\ p_posmap p !! h = f_posmap f !! h.
Proof. exact ex_placed. Qed.

(** C44 is false: the position map can have a wrong position for a leaf told to
    remember; Prove then returns a proof that the pollard itself rejects. *)
Theorem C44_own_proof_refuted : exists H f p bp v p2 f2 pf w,
  F_Modify H (RamForest_new 0) adds44 [] = Ok (true, f) /\ P_Modify H (Pollard_new 0) adds44 [] = Ok (true, p) /\
  F_Prove f dels44 = Ok (Some bp) /\ P_Verify H p bp dels44 = Ok (true, v) /\
  P_Modify H v adds44' [0; 1; 2; 3; 5] = Ok (true, p2) /\ F_Modify H f adds44' [0; 1; 2; 3; 5] = Ok (true, f2) /\
  p_posmap p2 !! 109 = Some 5 /\ f_posmap f2 !! 109 = Some 1 /\ P_Prove p2 [109] = Ok (Some pf) /\ P_Verify H p2 pf [109] = Ok (false, w).
Proof. exact C44_refuted_lem. Qed.
Print Assumptions C44_own_proof_refuted.

(** What remains of C44.  An accepted proof sets the positions of its targets
    right and leaves the others. *)
Theorem C44_positions_verify_partial H f p bp ths p' h : synced H f p -> verifies H f p bp ths true p' ->
  (h ∈ ths -> p_posmap p' !! h = f_posmap f !! h) /\ (h ∉ ths -> p_posmap p' !! h = p_posmap p !! h).
Proof. exact (C44_verify_lem H f p bp ths p' h). Qed.
Print Assumptions C44_positions_verify_partial.

(** A modification sets the positions of the added leaves to remember right; if it
    deletes nothing, it moves no leaf and leaves the other positions. *)
Theorem C44_positions_modify_partial H f p bp ths p1 (adds : list leaf) f' p' h : synced H f p -> verifies H f p bp ths true p1 ->
  f_n f + size adds < 2 ^ 31 + size (m_sorted_targets bp) ->
  F_Modify H f adds (m_sorted_targets bp) = Ok (true, f') -> P_Modify H p1 adds (m_sorted_targets bp) = Ok (true, p') ->
  ((h, true) ∈ adds -> p_posmap p' !! h = f_posmap f' !! h) /\
  (m_sorted_targets bp = [] -> h ∉ adds.*1 -> p_posmap p' !! h = p_posmap p !! h /\ f_posmap f' !! h = f_posmap f !! h).
Proof. exact (C44_modify_lem H f p bp ths p1 adds f' p' h). Qed.
Print Assumptions C44_positions_modify_partial.

Example C44_example : exists f p bp v f' p', synced ex_H f p /\ holds_leaves f ex_ls /\ verifies ex_H f p bp [11; 12; 15] true v /\
  f_n f + size ex_adds < 2 ^ 31 + size (m_sorted_targets bp) /\
  F_Modify ex_H f ex_adds (m_sorted_targets bp) = Ok (true, f') /\ P_Modify ex_H v ex_adds (m_sorted_targets bp) = Ok (true, p') /\ (21, true) ∈ ex_adds.
Proof. exact ex_positions. Qed.

(** C29, what else remains of it: a rejected proof leaves the number of stored
    nodes, and adds at most its targets to the remembered leaves. *)
Theorem C29_rejected_counts_partial H f p bp ths p' : synced H f p -> proof_wf bp -> P_Verify H p bp ths = Ok (false, p') ->
  P_CountNodes p' = P_CountNodes p /\ P_NumCachedLeaves p <= P_NumCachedLeaves p' <= P_NumCachedLeaves p + size (m_sorted_targets bp).
Proof. exact (reject_counts H f p bp ths p'). Qed.
Print Assumptions C29_rejected_counts_partial.

Example C29_counts_example : exists f p bp ths w, synced ex_H f p /\ proof_wf bp /\ P_Verify ex_H p bp ths = Ok (false, w).
Proof. destruct ex_forge as (f & p & v & w & H1 & H2 & H3 & H4). by exists f, p, (BatchProof [0] [9]), [15], w. Qed.
