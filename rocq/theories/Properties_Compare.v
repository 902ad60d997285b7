(** * Properties of comparing the position maps of a pollard and a forest: C72 *)
From Verif Require Import Base StateModel CodecModel ForestModel PollardModel PosSpec MerkleSpec ForestSpec ProofSpec PollardSpec FullSpec FullFacts CompareFacts.

(** C72: comparing the position map of a pollard with that of the forest it follows is
    always defined, in whatever order the map is iterated, and says whether the
    positions the pollard knows are right. *)
Theorem C72_compare_pollard H f p es : synced H f p -> iterates es (p_posmap p) ->
  exists b, ComparePositionMap es (f_posmap f) = Ok b /\
    (b = true <-> forall h x, p_posmap p !! h = Some x -> x < f_n f /\ F_GetLeaf f x = Ok h).
Proof. exact (compare_pollard_lem H f p es). Qed.
Print Assumptions C72_compare_pollard.

(** If the pollard was told to remember every leaf the comparison succeeds in both
    directions. *)
Theorem C72_compare_full H f p es : full_history H f p -> iterates es (p_posmap p) ->
  ComparePositionMap es (f_posmap f) = Ok true /\ iterates es (f_posmap f) /\ ComparePositionMap es (p_posmap p) = Ok true.
Proof. exact (compare_full_lem H f p es). Qed.
Print Assumptions C72_compare_full.

Example C72_example H : exists f p es, synced H f p /\ iterates es (p_posmap p) /\ (15, 5) ∈ es.
Proof. exact (ex_compare_pollard H). Qed.
