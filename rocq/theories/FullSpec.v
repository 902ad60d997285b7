(** * FullSpec: a pollard told to remember every leaf (specification) *)
From Verif Require Import Base StateModel CodecModel ForestModel PollardModel PosSpec MerkleSpec ForestSpec ProofSpec PollardSpec.

Section Spec.
Context (H : hash -> hash -> hash).

(** A forest and a pollard with a common history in which the pollard is told to
    remember every leaf: both start empty, or the pollard accepts a proof of all
    leaves; every added leaf is to be remembered; the pollard is not pruned.  The
    pollard may verify proofs, but deletes leaves without being given one. *)
Inductive full_history : forest -> pollard -> Prop :=
| fh_new : full_history (RamForest_new 0) (Pollard_new 0)
| fh_all f p bp ths p' : synced H f p -> verifies H f p bp ths true p' ->
    (forall i h, i < f_n f -> F_GetLeaf f i = Ok h -> h ∈ ths) -> full_history f p'
| fh_verify f p bp ths b p' : full_history f p -> verifies H f p bp ths b p' -> full_history f p'
| fh_modify f p (adds : list leaf) ts f' p' : full_history f p -> f_n f + size adds < 2 ^ 31 + size ts ->
    Forall (λ a : leaf, a.2 = true) adds ->
    F_Modify H f adds ts = Ok (true, f') -> P_Modify H p adds ts = Ok (true, p') -> full_history f' p'.
End Spec.
