(** * SpentSpec: what happens to a forest after a leaf was deleted (specification) *)
From Verif Require Import Base CodecModel ForestModel MerkleSpec ForestSpec.

Section Later.
Context (H : hash -> hash -> hash).

(** [f'] is [f] after some modifications, which added the leaves [s]; in between the forest
    may be written to its file and opened again. *)
Inductive later : forest -> list hash -> forest -> Prop :=
| later_now f : later f [] f
| later_modify f s f1 (adds : list leaf) ts f' : later f s f1 -> f_n f1 + size adds < 2 ^ 31 + size ts ->
    F_Modify H f1 adds ts = Ok (true, f') -> later f (s ++ adds.*1) f'
| later_modify_undo f s f1 (adds : list leaf) ts u f' : later f s f1 -> f_n f1 + size adds < 2 ^ 31 + size ts ->
    F_ModifyUndo H f1 adds ts = Ok (true, Some u, f') -> later f (s ++ adds.*1) f'
| later_reopen f s f1 old bytes f' : later f s f1 -> (forall a b, H a b < 256 ^ 32) -> (forall i h, i < f_n f1 -> F_GetLeaf f1 i = Ok h -> h < 256 ^ 32) ->
    F_Commit f1 old = Ok bytes -> F_Restore bytes = Ok f' -> later f s f'.
End Later.
