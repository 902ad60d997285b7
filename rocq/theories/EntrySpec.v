(** * EntrySpec: what the position map of a Pollard says after a deletion (specification) *)
From Verif Require Import Base StateModel CodecModel ForestModel PollardModel PosSpec MerkleSpec ForestSpec ProofSpec PollardSpec.

(** Where a leaf is after exchanging two leaves, and after exchanging several
    pairs one after the other. *)
Definition exchange (s : swap) (x : N) : N := if x =? m_from s then m_to s else if x =? m_to s then m_from s else x.
Definition moved_by (ss : list swap) (x : N) : N := fold_left (fun y s => exchange s y) ss x.

(** The swaps of row 0. *)
Definition first_row (sws : list (list swap)) : list swap := match sws with [] => [] | ss :: _ => ss end.

(** A leaf hash whose position a pollard has followed: since its proof was last
    accepted or it was added with the flag, the pollard was not pruned, and after
    every modification it still stored the hash, or the leaf had only been moved
    in row 0. *)
Section Follow.
Context (H : hash -> hash -> hash).
Inductive followed (h : hash) : forest -> pollard -> Prop :=
| fw_proved f p bp ths p' : synced H f p -> verifies H f p bp ths true p' -> h ∈ ths -> followed h f p'
| fw_added f p bp ths p1 (adds : list leaf) f' p' : synced H f p -> verifies H f p bp ths true p1 ->
    f_n f + size adds < 2 ^ 31 + size (m_sorted_targets bp) ->
    F_Modify H f adds (m_sorted_targets bp) = Ok (true, f') ->
    P_Modify H p1 adds (m_sorted_targets bp) = Ok (true, p') -> (h, true) ∈ adds -> followed h f' p'
| fw_verify f p bp ths b p' : followed h f p -> verifies H f p bp ths b p' -> followed h f p'
| fw_modify f p bp ths p1 (adds : list leaf) f' p' sws x y : followed h f p -> verifies H f p bp ths true p1 ->
    f_n f + size adds < 2 ^ 31 + size (m_sorted_targets bp) ->
    F_Modify H f adds (m_sorted_targets bp) = Ok (true, f') ->
    P_Modify H p1 adds (m_sorted_targets bp) = Ok (true, p') ->
    Transform (f_n f) (m_sorted_targets bp) = Ok sws -> h ∉ adds.*1 ->
    f_posmap f !! h = Some x -> f_posmap f' !! h = Some y ->
    P_Read p' y = Ok (Some h) \/ moved_by (first_row sws) x = y -> followed h f' p'.
End Follow.
