(** * Property C81 (theorems) *)
From Verif Require Import Base StateModel CodecModel ForestModel PollardModel CheckedModel PosSpec ProofSpec MerkleSpec ForestSpec PollardSpec MarkSpec HistFacts
  ForestExamples UnverifiedExamples.

(** C81 is false: leaves deleted without a proof, of which some nodes are not stored,
    can give wrong roots although Modify returns true, also with the checks of a debug
    build. *)
Theorem C81_unverified_refuted : exists f p f' p' v r s, synced ex_H f p /\ F_Modify ex_H f [] [2; 3] = Ok (true, f') /\
  P_Modify ex_H p [] [2; 3] = Ok (true, p') /\ P_Roots p' = Ok r /\ r <> F_Roots f' /\ VP_Modify ex_H p [] [2; 3] = Ok (true, v) /\ P_Roots v = Ok s /\ s <> F_Roots f'.
Proof. exact (run81_inv ex_H run81_ok). Qed.
Print Assumptions C81_unverified_refuted.

(** Wherever the nodes above the targets and their siblings are stored, remembered or
    not, deleting without a proof is right, and the pollard still follows the forest. *)
Theorem C81_unverified_partial H f p (adds : list leaf) ts f' : synced H f p ->
  has_nodes f p ts ->
  f_n f + size adds < 2 ^ 31 + size ts -> F_Modify H f adds ts = Ok (true, f') ->
  exists p', P_Modify H p adds ts = Ok (true, p') /\ P_Roots p' = Ok (F_Roots f') /\ p_n p' = f_n f' /\ synced H f' p'.
Proof. exact (C81_partial_lem H f p adds ts f'). Qed.
Print Assumptions C81_unverified_partial.

(** Of four leaves the first is remembered, and the second is deleted. *)
Example C81_partial_example : exists f p f', synced ex_H f p /\ F_Modify ex_H f [] [1] = Ok (true, f') /\ ~ remembers p 1 /\
  has_nodes f p [1].
Proof. exact ex_stored. Qed.
