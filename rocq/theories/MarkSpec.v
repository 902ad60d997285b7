(** * MarkSpec: which leaves a pollard remembers (specification) *)
From Verif Require Import Base CodecModel ForestModel PollardModel PosSpec ProofSpec ForestSpec PollardSpec.

(** The node that keeps the remember marker of leaf [t]: its sibling, or the leaf
    itself if it is a root. *)
Definition keeper (n t q : N) : Prop := (is_root n 0 t /\ q = t) \/ (~ is_root n 0 t /\ q = sib t).
(** The pollard stores a marker for leaf [t]. *)
Definition remembers (p : pollard) (t : N) : Prop := exists a s rp nd,
  P_ReadSiblings p t false = Ok (a, Some s, rp) /\ p_heap p !! s = Some nd /\ i_l nd = Some rem.

(** The hashes [prf] are used up by the nodes needed for the targets [ts]. *)
Definition spends (p : pollard) (ts : list N) (prf : list hash) : Prop := exists R ps st out,
  is_height (p_n p) R /\ lists_nodes R (needed (p_n p) ts) ps /\ Forall2 (fun q x => P_Read p q = Ok x) ps st /\ takes (rev st) (rev prf) out [].
(** None of the targets up to the one with index [x] is stored with another hash
    than the given one. *)
Definition agreed (p : pollard) (ts : list N) (ths : list hash) (x : nat) : Prop :=
  forall y t th h, (y <= x)%nat -> ts !! y = Some t -> ths !! y = Some th -> P_Read p t = Ok (Some h) -> h = th.
(** A proof that is rejected only in the comparison of hashes. *)
Definition compared (p : pollard) (bp : batch_proof) (ths : list hash) : Prop :=
  valid_targets (p_n p) (m_sorted_targets bp) /\ length ths = length (m_sorted_targets bp) /\ spends p (m_sorted_targets bp) (m_proof bp).
(** Leaf [t] is marked while such a proof is compared, in a node that was stored before. *)
Definition marks (p : pollard) (bp : batch_proof) (ths : list hash) (t : N) : Prop :=
  compared p bp ths /\ (exists q h, keeper (p_n p) t q /\ P_Read p q = Ok (Some h)) /\
  exists x, m_sorted_targets bp !! x = Some t /\ agreed p (m_sorted_targets bp) ths x.

(** A target that Verify compares equal although it is neither a root, nor in the
    position map, and its sibling is not remembered (before, or as an earlier target). *)
Definition unknown_target (p : pollard) (bp : batch_proof) (ths : list hash) : Prop :=
  compared p bp ths /\ exists x t h, m_sorted_targets bp !! x = Some t /\ agreed p (m_sorted_targets bp) ths x /\ P_Read p t = Ok (Some h) /\
    ~ is_root (p_n p) 0 t /\ ~ remembers p (sib t) /\ sib t ∉ take x (m_sorted_targets bp) /\ p_posmap p !! h = None.

(** The leaf hashes remembered after a history. *)
Section Keeps.
Context (H : hash -> hash -> hash).
Inductive keeps : forest -> pollard -> gset hash -> Prop :=
| kp_new : keeps (RamForest_new 0) (Pollard_new 0) ∅
| kp_restore f us p : reachable H f us -> Pollard_restore (F_Roots f) (f_n f) = Ok p -> keeps f p ∅
| kp_accept f p s bp ths p' : keeps f p s -> verifies H f p bp ths true p' -> keeps f p' (s ∪ list_to_set ths)
| kp_reject f p s s' bp ths p' : keeps f p s -> verifies H f p bp ths false p' ->
    (forall h, h ∈ s' <-> h ∈ s \/ exists t, marks p bp ths t /\ F_GetLeaf f t = Ok h) -> keeps f p' s'
| kp_prune f p s p' : keeps f p s -> P_Prune p = Ok p' -> keeps f p' ∅
| kp_modify f p s bp ths p1 (adds : list leaf) f' p' : keeps f p s -> verifies H f p bp ths true p1 ->
    f_n f + size adds < 2 ^ 31 + size (m_sorted_targets bp) ->
    F_Modify H f adds (m_sorted_targets bp) = Ok (true, f') ->
    P_Modify H p1 adds (m_sorted_targets bp) = Ok (true, p') ->
    keeps f' p' ((s ∖ list_to_set ths) ∪ list_to_set (filter (λ a : leaf, a.2 = true) adds).*1)
| kp_stored f p s (adds : list leaf) ts ths f' p' : keeps f p s -> has_nodes f p ts -> Forall2 (λ t h, F_GetLeaf f t = Ok h) ts ths ->
    f_n f + size adds < 2 ^ 31 + size ts -> F_Modify H f adds ts = Ok (true, f') -> P_Modify H p adds ts = Ok (true, p') ->
    keeps f' p' ((s ∖ list_to_set ths) ∪ list_to_set (filter (λ a : leaf, a.2 = true) adds).*1).
End Keeps.
