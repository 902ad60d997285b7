(** * MarkExamples: leaves remembered after a rejected proof (examples) *)
From stdpp Require Import sorting.
From Verif Require Import Base StateModel CodecModel ForestModel PollardModel CheckedModel PosSpec PosFacts PosmapFacts MerkleSpec TargetFacts ForestFacts RowFacts SpecFacts RemoveFacts ForestInv ForestSpec HistFacts
  ProofSpec ProveFacts PollardSpec PollardRemove PollardHist PollardProps PollardRecall ForestExamples PollardRefute PollardExamples CheckedPollard UniqueFacts MarkSpec MarkFacts CheckedExact.
From Coq Require Import ZifyBool ZifyNat ZifyN.
Ltac Zify.zify_post_hook ::= idtac.

(** As [run55] (leaves 10 and 11, of which 11 is to be remembered; a rejected proof
    of both; then 11 is deleted), with what is remembered after the rejected proof. *)
Definition run80 (H : hash -> hash -> hash) : res (bool * bool * bool * N * res (option hash)) :=
  let* f := F_Modify H (RamForest_new 0) adds29 [] in
  let* p := P_Modify H (Pollard_new 0) adds29 [] in
  let* v := P_Verify H p.2 bp29 [10; 12] in
  Ok (f.1, p.1, v.1, P_NumCachedLeaves v.2, P_Read p.2 1).
Lemma run80_ok : run80 ex_H = Ok (true, true, false, 2, Ok (Some 11)).
Proof. vm_compute. reflexivity. Qed.

Lemma keeps_eq H f p s s' : keeps H f p s -> s = s' -> keeps H f p s'.
Proof. by intros ? <-. Qed.
Lemma keeps_start H (adds : list leaf) f p : size adds < 2 ^ 31 -> F_Modify H (RamForest_new 0) adds [] = Ok (true, f) ->
  P_Modify H (Pollard_new 0) adds [] = Ok (true, p) -> keeps H f p ((∅ ∖ list_to_set []) ∪ list_to_set (filter (λ a : leaf, a.2 = true) adds).*1).
Proof.
  intros Hb EF EP. apply (kp_modify H (RamForest_new 0) (Pollard_new 0) ∅ (BatchProof [] []) [] (Pollard_new 0) adds); [constructor| | |exact EF|exact EP].
  - split; [done|]. split; [apply verify_nothing|]. intros ls Hh. apply stores_no_collision, PInv_stores.
    + destruct Hh as [Hl _]. change (0 = size ls) in Hl. destruct ls; [apply PInv_new|]. unfold size in Hl. cbn [length] in Hl. lia.
    + destruct Hh as [<- _]. done.
  - change (m_sorted_targets (BatchProof [] [])) with (@nil N). change (f_n (RamForest_new 0)) with 0. change (size (@nil N)) with 0. lia.
Qed.
Lemma rejects H f p ls bp ths p' : synced H f p -> holds_leaves f ls -> proof_wf bp -> P_Verify H p bp ths = Ok (false, p') -> verifies H f p bp ths false p'.
Proof.
  intros Hs Hh Hwf E. split; [done|]. split; [done|]. intros ls' Hh'. destruct (C28_lem H f p bp ths false p' ls' Hs Hh' Hwf E) as (_ & _ & [Ho|[? _]]); [by apply stores_no_collision|done].
Qed.
Lemma wf29 : proof_wf bp29.
Proof. vm_compute. reflexivity. Qed.
Lemma keeps_rejected H f p s bp ths v : keeps H f p s -> verifies H f p bp ths false v -> exists s', keeps H f v s' /\ forall h, h ∈ s' <-> h ∈ s \/ exists t, marks p bp ths t /\ F_GetLeaf f t = Ok h.
Proof.
  intros Hk Hv. pose proof (keeps_synced H f p s Hk) as Hs. destruct (C80_all_lem H f v) as [s' Hs']; [exact (sy_verify H f p bp ths false v Hs Hv)|]. exists s'.
  assert (Hiff : forall h, h ∈ s' <-> h ∈ s \/ exists t, marks p bp ths t /\ F_GetLeaf f t = Ok h); [|split; [exact Hs'|exact Hiff]].
  destruct (C80_lem H f v s' Hs') as (_ & _ & A1 & A2). destruct (C80_lem H f p s Hk) as (_ & _ & B1 & B2). destruct Hv as (Hwf & E & _).
  destruct (synced_inv H f p Hs) as (us & ls & Hr & [Hfn _] & Hn31 & HP). assert (Hpn : p_n p = f_n f) by (destruct HP; congruence).
  assert (Hmt : forall t, marks p bp ths t -> t < f_n f).
  { intros t (((_ & Hlt) & _) & _ & x & Ex & _). rewrite Forall_forall, Hpn in Hlt. apply Hlt. by eapply elem_of_list_lookup_2. }
  intros h. split.
  - intros Hh. pose proof Hh as Hin. destruct (A1 h Hin) as (t & Ht & Eg). apply (A2 t h Ht Eg), (C29_exact_lem H f p bp ths v t Hs Hwf E Ht) in Hh as [Hh|Hh]; [left; by apply (B2 t h)|right; eauto].
  - intros [Hh|(t & Hm & Eg)].
    + destruct (B1 h Hh) as (t & Ht & Eg). apply (A2 t h Ht Eg), (C29_exact_lem H f p bp ths v t Hs Hwf E Ht). left. by apply (B2 t h).
    + apply (A2 t h (Hmt t Hm) Eg), (C29_exact_lem H f p bp ths v t Hs Hwf E (Hmt t Hm)). by right.
Qed.
Lemma two_sub (s : gset N) : (forall h, h ∈ s -> h = 10 \/ h = 11) -> base.size s = 2%nat -> s = {[10; 11]}.
Proof.
  intros Hsub E. assert (Eu : s ∪ {[10; 11]} = {[10; 11]}).
  { apply set_eq. intros h. rewrite elem_of_union. split; [|by right]. intros [Hin|?]; [|done]. destruct (Hsub h Hin) as [->| ->]; [apply elem_of_union_l|apply elem_of_union_r]; by apply elem_of_singleton. }
  assert (E2 : base.size ({[10; 11]} : gset N) = 2%nat) by (vm_compute; reflexivity).
  pose proof (size_union_alt s ({[10; 11]} : gset N)) as Hu. rewrite Eu, E2, E in Hu. assert (Hz : base.size (({[10; 11]} : gset N) ∖ s) = 0%nat) by lia.
  apply size_empty_inv in Hz. apply set_eq. intros h. split.
  - intros Hin. destruct (Hsub h Hin) as [->| ->]; [apply elem_of_union_l|apply elem_of_union_r]; by apply elem_of_singleton.
  - intros Hin. destruct (decide (h ∈ s)) as [|Hno]; [done|]. exfalso. apply (not_elem_of_empty (C := gset N) h). apply Hz. by apply elem_of_difference.
Qed.
Lemma below_two t : t < 2 -> t = 0 \/ t = 1.
Proof. lia. Qed.
Lemma ex_marks : exists f p v, keeps ex_H f p {[11]} /\ holds_leaves f [10; 11] /\ P_Verify ex_H p (BatchProof [0; 1] []) [10; 12] = Ok (false, v) /\ keeps ex_H f v {[10; 11]} /\
  marks p (BatchProof [0; 1] []) [10; 12] 0 /\ ~ marks p (BatchProof [0; 1] []) [10; 12] 1 /\
  F_Modify ex_H (RamForest_new 0) adds29 [] = Ok (true, f) /\ P_Modify ex_H (Pollard_new 0) adds29 [] = Ok (true, p).
Proof.
  change (BatchProof [0; 1] []) with bp29. pose proof run80_ok as E. unfold run80 in E. apply bind_ok in E as ([b1 f] & E1 & E). apply bind_ok in E as ([b2 p] & E2 & E). cbn [fst snd] in E.
  apply bind_ok in E as ([b3 v] & E3 & E). cbn [fst snd] in E.
  assert (b1 = true /\ b2 = true /\ b3 = false /\ P_NumCachedLeaves v = 2 /\ P_Read p 1 = Ok (Some 11)) as (-> & -> & -> & Ec & Erd) by (split_and!; congruence). clear E.
  assert (Hk : keeps ex_H f p {[11]}).
  { eapply keeps_eq; [by apply (keeps_start ex_H adds29)|]. apply (bool_decide_unpack _). by vm_compute. }
  assert (Hh : holds_leaves f [10; 11]).
  { apply (grow_holds ex_H adds29); [done| |done]. apply (bool_decide_unpack _). by vm_compute. }
  assert (Hv : verifies ex_H f p bp29 [10; 12] false v) by (eapply rejects; [by eapply keeps_synced|done|apply wf29|done]).
  destruct (keeps_rejected ex_H f p _ bp29 [10; 12] v Hk Hv) as (s' & Hk' & Hs').
  destruct (C80_lem ex_H f v s' Hk') as (_ & Hc & Hl & _). rewrite Ec in Hc.
  assert (Hg : forall t h, t < f_n f -> F_GetLeaf f t = Ok h -> (t = 0 /\ h = 10) \/ (t = 1 /\ h = 11)).
  { destruct Hh as [Hfn Hg]. change (size [10; 11]) with 2 in *. intros t h Ht Eg. rewrite Hfn in Ht. rewrite (Hg t Ht) in Eg. apply Ok_inv in Eg as <-. destruct (below_two t Ht) as [->| ->]; [left|right]; (split; [reflexivity|]); reflexivity. }
  assert (Es : s' = {[10; 11]}).
  { apply two_sub; [|by apply Nat2N.inj; rewrite <- Hc]. intros h Hin. destruct (Hl h Hin) as (t & Ht & Eg). destruct (Hg t h Ht Eg) as [[_ ->]|[_ ->]]; [by left|by right]. }
  rewrite Es in *. exists f, p, v. split; [done|]. split; [done|]. split; [done|]. split; [done|]. split; [|split; [|done]].
  - assert (Hin : 10 ∈ ({[10; 11]} : gset N)) by (apply elem_of_union_l; by apply elem_of_singleton). apply Hs' in Hin as [Hin|(t & Hm & Eg)]; [by apply elem_of_singleton in Hin|].
    assert (Ht : t < f_n f).
    { destruct Hm as (((_ & Hlt) & _) & _ & x & Ex & _). destruct Hh as [-> _]. change (m_sorted_targets bp29) with [0; 1] in Ex. change (size [10; 11]) with 2. destruct x as [|[|x]]; [|by injection Ex as <-|done]. by injection Ex as <-. }
    destruct (Hg t 10 Ht Eg) as [[-> _]|[_ ?]]; done.
  - intros (_ & _ & x & Ex & Ha). change (m_sorted_targets bp29) with [0; 1] in *. assert (11 = 12); [|done]. destruct x as [|[|x]]; [done| |done].
    by apply (Ha 1%nat 1 12 11).
Qed.

(** After leaf 11 is deleted and 13 added, an honest proof of leaf 10 fails the check. *)
Lemma ex_unknown : exists f p pf x, keeps ex_H f p {[10]} /\ F_Prove f [10] = Ok (Some pf) /\ proof_wf pf /\ P_Verify ex_H p pf [10] = Ok (true, x) /\ unknown_target p pf [10] /\ VP_Verify ex_H p pf [10] = Abort.
Proof.
  destruct (run55_inv ex_H run55_ok) as (f & p & v & bp & w & p2 & f2 & pf & x & E1 & E2 & E3 & E4 & E5 & E6 & E7 & E8 & E9 & E10).
  destruct ex_marks as (f' & p' & v' & _ & Hh & Hv & Hk & _ & _ & F1 & F2). rewrite E1 in F1. apply Ok_inv in F1. injection F1 as <-. rewrite E2 in F2. apply Ok_inv in F2. injection F2 as <-.
  change (BatchProof [0; 1] []) with bp29 in Hv. rewrite E3 in Hv. apply Ok_inv in Hv. injection Hv as <-.
  pose proof (keeps_synced ex_H f v _ Hk) as Hs.
  destruct (sync_step ex_H f v [10; 11] adds55 [1] Hs Hh) as (bp' & w' & f2' & p2' & G1 & G2 & G3 & G4 & G5 & G6 & _ & Hh2).
  { done. } { split; repeat constructor. } { apply (bool_decide_unpack _). by vm_compute. }
  change (leaf_at [10; 11] <$> [1]) with [11] in *. rewrite E4 in G1. apply Ok_inv in G1. injection G1 as <-. rewrite E5 in G3. apply Ok_inv in G3. injection G3 as <-.
  assert (Hk2 : keeps ex_H f2' p2' {[10]}).
  { eapply keeps_eq; [eapply (kp_modify ex_H f v _ bp _ w adds55 f2' p2'); [exact Hk|exact G4| |by rewrite G2|by rewrite G2]; destruct Hh as [-> _]; by rewrite G2|].
    apply (bool_decide_unpack _). by vm_compute. }
  rewrite E7 in G5. apply Ok_inv in G5. injection G5 as <-. rewrite E6 in G6. apply Ok_inv in G6. injection G6 as <-.
  assert (Hwf : proof_wf pf).
  { destruct (sync_step ex_H f2 p2 [10; 13] [] [0] (keeps_synced ex_H f2 p2 _ Hk2) Hh2) as (pf' & _ & _ & _ & G1 & _ & _ & [Hwf _] & _);
      [done|split; repeat constructor|apply (bool_decide_unpack _); by vm_compute|].
    change (leaf_at [10; 13] <$> [0]) with [10] in G1. rewrite E8 in G1. apply Ok_inv in G1. by injection G1 as <-. }
  exists f2, p2, pf, x. split; [done|]. split; [done|]. split; [done|]. split; [done|]. split; [|done].
  destruct (C55_exact_lem ex_H f2 p2 pf [10] _ (keeps_synced ex_H f2 p2 _ Hk2) Hwf E9) as [[Hu _]|[_ E]]; [done|]. rewrite E10 in E. discriminate E.
Qed.
