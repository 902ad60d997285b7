(** * Properties of the build with internal checks: C53 to C55 *)
From Verif Require Import Base StateModel CodecModel ForestModel PollardModel CheckedModel PosSpec MerkleSpec ForestSpec PollardSpec HistFacts
  CheckedFacts PollardKeys CheckedPollard PollardRecall CheckedVerify ForestExamples PollardExamples.

(** C53: in the build with CHECK_SAFE on, no check of the forest ever fails: Modify
    and Undo do exactly what they do without the checks. *)
Theorem C53_forest_checks H f us (adds : list leaf) ts : reachable H f us -> f_n f + size adds < 2 ^ 31 + size ts ->
  VF_Modify H f adds ts = F_Modify H f adds ts /\ VF_ModifyUndo H f adds ts = F_ModifyUndo H f adds ts.
Proof. exact (VF_Modify_eq H f us adds ts). Qed.
Print Assumptions C53_forest_checks.

Theorem C53_undo_checks H f u us : reachable H f (u :: us) -> VF_Undo H f u = F_Undo H f u.
Proof. exact (VF_Undo_eq H f u us). Qed.
Print Assumptions C53_undo_checks.

Example C53_example : exists f u0 u f', reachable ex_H f [u0] /\ f_n f = 7 /\ VF_Modify ex_H f ex_adds ex_ts = Ok (true, f') /\
  VF_ModifyUndo ex_H f ex_adds ex_ts = Ok (true, Some u, f') /\ reachable ex_H f' [u; u0] /\ VF_Undo ex_H f' u = F_Undo ex_H f' u.
Proof.
  destruct ex_history as (f & u0 & u & f' & H1 & _ & H3 & H4 & H5 & H6 & _). exists f, u0, u, f'.
  destruct (C53_forest_checks ex_H f [u0] ex_adds ex_ts H1) as [-> ->]; [rewrite H3; exact (eq_refl Lt)|].
  split; [exact H1|]. split; [exact H3|]. split; [exact H4|]. split; [exact H5|]. split; [exact H6|]. exact (C53_undo_checks ex_H f' u [u0] H6).
Qed.

(** C54: the position map of a pollard never holds a hash that is not a leaf of
    the forest: deleted leaves are forgotten.  So a pollard never makes a proof for
    an absent leaf, and the checks of Pollard::Modify never fail. *)
Theorem C54_known_leaves H f p : synced H f p -> forall ls, holds_leaves f ls -> forall h, is_Some (p_posmap p !! h) -> h ∈ ls.
Proof. exact (synced_keys H f p). Qed.
Print Assumptions C54_known_leaves.

Theorem C54_no_proof_of_absent H f p ls hs h : synced H f p -> holds_leaves f ls -> h ∈ hs -> h ∉ ls -> P_Prove p hs = Ok None.
Proof. exact (prove_absent H f p ls hs h). Qed.
Print Assumptions C54_no_proof_of_absent.

Theorem C54_modify_checks H f p bp ths p1 (adds : list leaf) f' : synced H f p -> verifies H f p bp ths true p1 ->
  f_n f + size adds < 2 ^ 31 + size (m_sorted_targets bp) -> F_Modify H f adds (m_sorted_targets bp) = Ok (true, f') ->
  VP_Modify H p1 adds (m_sorted_targets bp) = P_Modify H p1 adds (m_sorted_targets bp).
Proof. exact (VP_Modify_eq H f p bp ths p1 adds f'). Qed.
Print Assumptions C54_modify_checks.

(** A pollard that has verified a proof of 11, 12 and 15, deletes them, and then
    makes no proof of 12. *)
Example C54_example : exists f p bp v f' p', synced ex_H f p /\ verifies ex_H f p bp [11; 12; 15] true v /\ m_sorted_targets bp = ex_ts /\
  F_Modify ex_H f ex_adds ex_ts = Ok (true, f') /\ P_Modify ex_H v ex_adds ex_ts = Ok (true, p') /\ VP_Modify ex_H v ex_adds ex_ts = Ok (true, p') /\
  synced ex_H f' p' /\ holds_leaves f' ex_ls' /\ P_Prove p' [12] = Ok None.
Proof.
  destruct ex_sync as (f & p & bp & v & f' & p' & H1 & [Hn Hg] & H3 & H4 & _ & H6 & H7 & H8 & H9 & H10). exists f, p, bp, v, f', p'.
  split; [exact H1|]. split; [exact H6|]. split; [exact H4|]. split; [exact H7|]. split; [exact H8|]. split.
  - rewrite <- H4 in H7, H8 |- *. rewrite (C54_modify_checks ex_H f p bp [11; 12; 15] v ex_adds f' H1 H6); [exact H8| |exact H7].
    rewrite H4, Hn. exact (eq_refl Lt).
  - split; [exact H9|]. split; [exact H10|]. apply (C54_no_proof_of_absent ex_H f' p' ex_ls' [12] 12 H9 H10); [by left|].
    apply (bool_decide_unpack _). by vm_compute.
Qed.

(** C55 is false: after a rejected proof the check of Verify (pollard.cpp:592)
    stops the program on an honest proof that is accepted without the check. *)
Theorem C55_verify_checks_refuted : exists H f p v bp w p2 f2 pf x,
  F_Modify H (RamForest_new 0) [(10, false); (11, true)] [] = Ok (true, f) /\ P_Modify H (Pollard_new 0) [(10, false); (11, true)] [] = Ok (true, p) /\
  P_Verify H p (BatchProof [0; 1] []) [10; 12] = Ok (false, v) /\ F_Prove f [11] = Ok (Some bp) /\ P_Verify H v bp [11] = Ok (true, w) /\
  P_Modify H w [(13, false)] [1] = Ok (true, p2) /\ F_Modify H f [(13, false)] [1] = Ok (true, f2) /\ F_Prove f2 [10] = Ok (Some pf) /\
  P_Verify H p2 pf [10] = Ok (true, x) /\ VP_Verify H p2 pf [10] = Abort.
Proof. exact C55_refuted_lem. Qed.
Print Assumptions C55_verify_checks_refuted.

(** What remains of it: the check never changes a result, it can only stop the
    program. *)
Theorem C55_verify_checks_partial H f p bp ths r : synced H f p -> P_Verify H p bp ths = Ok r ->
  VP_Verify H p bp ths = Ok r \/ VP_Verify H p bp ths = Abort.
Proof. exact (VP_Verify_synced H f p bp ths r). Qed.
Print Assumptions C55_verify_checks_partial.

Example C55_example : exists f p bp v, synced ex_H f p /\ P_Verify ex_H p bp [11; 12; 15] = Ok (true, v).
Proof. destruct ex_sync as (f & p & bp & v & f' & p' & H1 & _ & _ & _ & H5 & _). by exists f, p, bp, v. Qed.

(** The check does not stop the program as long as the leaves that rejected proofs
    may have marked are known or gone: if all leaves the pollard may remember are in
    its position map, every Verify does what it does without the check. *)
Theorem C55_known_leaves_partial H f p lo hi bp ths r : recalls H f p lo hi -> (forall h, h ∈ hi -> is_Some (p_posmap p !! h)) -> proof_wf bp ->
  P_Verify H p bp ths = Ok r -> VP_Verify H p bp ths = Ok r.
Proof. exact (VP_Verify_known H f p lo hi bp ths r). Qed.
Print Assumptions C55_known_leaves_partial.

(** In particular on histories without rejected proofs, where the leaves that must
    and those that may be remembered are the same. *)
Theorem C55_no_rejected_partial H f p s bp ths r : recalls H f p s s -> proof_wf bp -> P_Verify H p bp ths = Ok r -> VP_Verify H p bp ths = Ok r.
Proof. exact (VP_Verify_settled H f p s bp ths r). Qed.
Print Assumptions C55_no_rejected_partial.

Example C55_no_rejected_example : exists f p bp v, recalls ex_H f p {[11; 14]} {[11; 14]} /\ proof_wf bp /\ P_Verify ex_H p bp [11; 12; 15] = Ok (true, v) /\
  VP_Verify ex_H p bp [11; 12; 15] = Ok (true, v).
Proof.
  destruct ex_recall as (f & p & bp & v & f' & p' & H1 & _ & (H3 & H4 & _) & _). exists f, p, bp, v. split; [exact H1|]. split; [exact H3|]. split; [exact H4|].
  exact (C55_no_rejected_partial ex_H f p _ bp _ _ H1 H3 H4).
Qed.
