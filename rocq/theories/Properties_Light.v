(** * Property C84 (theorems) *)
From Verif Require Import Base CodecModel ForestModel PollardModel PosSpec MerkleSpec ForestSpec ProofSpec PollardSpec LightSpec ForestExamples LightFacts.

(** C84: a pollard on its own, without a forest, always has the Merkle roots of its
    sequence of leaves, also if equal leaves occur in it. *)
Theorem C84_light_roots H p ls : light H p ls -> p_n p = size ls /\ exists rs, P_Roots p = Ok rs /\ roots_of H ls rs.
Proof. exact (C84_roots_lem H p ls). Qed.
Print Assumptions C84_light_roots.

(** It accepts the full proof of any of its leaves. *)
Theorem C84_light_accepts H p ls ts hs : light H p ls -> NoDup ts -> Forall (λ t, t < size ls) ts -> full_proof H ls (m_sorted_targets (BatchProof ts hs)) hs ->
  exists p', P_Verify H p (BatchProof ts hs) (leaf_at ls <$> m_sorted_targets (BatchProof ts hs)) = Ok (true, p') /\ ~ shows_collision H p' ls.
Proof. exact (C84_accepts_lem H p ls ts hs). Qed.
Print Assumptions C84_light_accepts.

(** What it accepts is true, unless it then shows a collision. *)
Theorem C84_light_sound H p ls bp ths p' : light H p ls -> proof_wf bp -> P_Verify H p bp ths = Ok (true, p') ->
  shows_collision H p' ls \/ (valid_targets (size ls) (m_sorted_targets bp) /\ ths = leaf_at ls <$> m_sorted_targets bp).
Proof. exact (C84_sound_lem H p ls bp ths p'). Qed.
Print Assumptions C84_light_sound.

(** After an accepted proof its targets can be deleted, and any leaves added. *)
Theorem C84_light_modify H p ls bp ths p1 (adds : list leaf) : light H p ls -> proof_wf bp -> P_Verify H p bp ths = Ok (true, p1) -> ~ shows_collision H p1 ls ->
  size ls + size adds < 2 ^ 31 + size (m_sorted_targets bp) -> exists p', P_Modify H p1 adds (m_sorted_targets bp) = Ok (true, p').
Proof. exact (C84_modify_lem H p ls bp ths p1 adds). Qed.
Print Assumptions C84_light_modify.

(** Every history with a forest is such a history. *)
Theorem C84_light_forest H f p ls : synced H f p -> holds_leaves f ls -> light H p ls.
Proof. exact (C84_synced_lem H f p ls). Qed.
Print Assumptions C84_light_forest.

(** Four leaves, three of which are equal; the second is deleted and another equal one
    added.  The forest refuses them. *)
Example C84_example : exists p q, light ex_H p [10; 10; 10; 12] /\ P_Modify ex_H p [(10, false)] [1] = Ok (true, q) /\
  light ex_H q (spec_remove [10; 10; 10; 12] [1] ++ [10]).
Proof. exact (run84_inv ex_H run84_ok). Qed.
Example C84_forest_example : F_Modify ex_H (RamForest_new 0) [(10, true); (10, false); (10, true); (12, false)] [] = Abort.
Proof. exact forest84. Qed.

(** Full proofs exist for all valid targets. *)
Example C84_proof_example : exists p hs, light ex_H p [10; 10; 10; 12] /\ full_proof ex_H [10; 10; 10; 12] (m_sorted_targets (BatchProof [2; 1] hs)) hs.
Proof.
  destruct C84_example as (p & _ & Hl & _). destruct (full_proof_exists ex_H [10; 10; 10; 12] [1; 2]) as [hs Hf]; [done|split; [by repeat constructor|by repeat constructor]|]. by exists p, hs.
Qed.
