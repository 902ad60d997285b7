(** * Properties of the position map of a pollard after deletions: C73 *)
From Verif Require Import Base StateModel CodecModel ForestModel PollardModel PosSpec MerkleSpec ForestSpec ProofSpec PollardSpec EntrySpec ForestExamples EntryFacts EntryExamples.

(** C73: a position that was right before a modification is right after it, unless
    the pollard does not store the hash of the leaf any more; then the position map
    says where the leaf was after the swaps of row 0. *)
Theorem C73_modified H f p bp ths v (adds : list leaf) f' p' sws h x y : synced H f p -> verifies H f p bp ths true v ->
  f_n f + size adds < 2 ^ 31 + size (m_sorted_targets bp) ->
  F_Modify H f adds (m_sorted_targets bp) = Ok (true, f') -> P_Modify H v adds (m_sorted_targets bp) = Ok (true, p') ->
  Transform (f_n f) (m_sorted_targets bp) = Ok sws -> h ∉ adds.*1 ->
  f_posmap f !! h = Some x -> p_posmap p !! h = Some x -> f_posmap f' !! h = Some y ->
  p_posmap p' !! h = Some y \/ (P_Read p' y = Ok None /\ p_posmap p' !! h = Some (moved_by (first_row sws) x)).
Proof. exact (entry_modified_lem H f p bp ths v adds f' p' sws h x y). Qed.
Print Assumptions C73_modified.

(** If nothing is added this is exact: the position of a leaf that is not stored
    after the deletion is the one after the swaps of row 0, right or wrong. *)
Theorem C73_deleted H f p bp ths v f' p' sws h x y : synced H f p -> verifies H f p bp ths true v -> m_sorted_targets bp <> [] ->
  F_Modify H f [] (m_sorted_targets bp) = Ok (true, f') -> P_Modify H v [] (m_sorted_targets bp) = Ok (true, p') ->
  Transform (f_n f) (m_sorted_targets bp) = Ok sws ->
  f_posmap f !! h = Some x -> p_posmap p !! h = Some x -> f_posmap f' !! h = Some y ->
  (P_Read p' y = Ok (Some h) /\ p_posmap p' !! h = Some y) \/ (P_Read p' y = Ok None /\ p_posmap p' !! h = Some (moved_by (first_row sws) x)).
Proof. exact (entry_deleted_lem H f p bp ths v f' p' sws h x y). Qed.
Print Assumptions C73_deleted.

(** The position of a leaf is right as long as the pollard stores its hash. *)
Theorem C73_followed H h f p : followed H h f p -> p_posmap p !! h = f_posmap f !! h.
Proof. exact (followed_right H h f p). Qed.
Print Assumptions C73_followed.

(** For such leaves the pollard makes the proofs that the forest makes. *)
Theorem C73_prove H f p lo hi hs : recalls H f p lo hi -> (forall h, h ∈ hs -> h ∈ lo /\ followed H h f p) -> P_Prove p hs = F_Prove f hs.
Proof. exact (followed_prove H f p lo hi hs). Qed.
Print Assumptions C73_prove.

(** Eight leaves of which 10 (position 0) and 14 (position 4) are remembered; 11 and
    12 are deleted.  Leaf 14 is moved to position 0 and followed.  Leaf 10 is moved to
    position 4, but the position map still says 0. *)
Example C73_example : exists f p bp v f' p' sws, recalls ex_H f p {[10; 14]} {[10; 14]} /\ holds_leaves f ls73 /\ verifies ex_H f p bp [11; 12] true v /\ m_sorted_targets bp = [1; 2] /\
  F_Modify ex_H f [] [1; 2] = Ok (true, f') /\ P_Modify ex_H v [] [1; 2] = Ok (true, p') /\ Transform (f_n f) [1; 2] = Ok sws /\
  f_posmap f !! 10 = Some 0 /\ p_posmap p !! 10 = Some 0 /\ f_posmap f' !! 10 = Some 4 /\ P_Read p' 4 = Ok None /\ moved_by (first_row sws) 0 = 0 /\
  f_posmap f !! 14 = Some 4 /\ p_posmap p !! 14 = Some 4 /\ f_posmap f' !! 14 = Some 0 /\ P_Read p' 0 = Ok (Some 14) /\
  recalls ex_H f' p' {[10; 14]} {[10; 14]} /\ followed ex_H 14 f' p'.
Proof. exact ex_entry. Qed.
