(** * MoreExamples: concrete cases for Properties_More (proofs) *)
From stdpp Require Import sorting.
From Verif Require Import Base StateModel CodecModel ForestModel PollardModel PosSpec PosFacts MerkleSpec ForestSpec ForestInv HistFacts ProofSpec ProveFacts PollardSpec PollardRep PollardHist PollardProps PollardRecall ForestMore
  ForestExamples PollardExamples.
Ltac Zify.zify_post_hook ::= idtac.

(** Four leaves, all to remember; two of them deleted. *)
Definition adds33' : list leaf := [(10, true); (11, true); (12, true); (13, true)].
Definition run33' (H : hash -> hash -> hash) : res (bool * bool * bool * list (option hash) * N) :=
  let* f := F_Modify H (RamForest_new 0) adds33' [] in
  let* p := P_Modify H (Pollard_new 0) adds33' [] in
  let* a := P_Read p.2 0 in let* b := P_Read p.2 1 in let* c := P_Read p.2 4 in let* d := P_Read p.2 6 in
  let* h0 := F_GetLeaf f.2 0 in let* h1 := F_GetLeaf f.2 1 in
  let* g := F_Modify H f.2 [(20, false)] [0; 1] in
  Ok (f.1, p.1, g.1, [a; b; c; d; Some h0; Some h1], f_n f.2).
Lemma run33'_ok H : run33' H = Ok (true, true, true, [Some 10; Some 11; Some (H 10 11); Some (H (H 10 11) (H 12 13)); Some 10; Some 11], 4).
Proof. vm_compute. reflexivity. Qed.
Lemma recall_start H (adds : list leaf) f p : size adds < 2 ^ 31 -> F_Modify H (RamForest_new 0) adds [] = Ok (true, f) ->
  P_Modify H (Pollard_new 0) adds [] = Ok (true, p) -> let s := list_to_set (filter (λ a : leaf, a.2 = true) adds).*1 in recalls H f p s s.
Proof.
  intros Hb EF EP s. eapply recalls_eq; [apply (rc_modify H (RamForest_new 0) (Pollard_new 0) ∅ ∅ (BatchProof [] []) [] (Pollard_new 0) adds); [constructor| | |exact EF|exact EP]| |].
  - split; [done|]. split; [apply verify_nothing|]. intros ls Hh. apply stores_no_collision, PInv_stores.
    + destruct Hh as [Hl _]. change (0 = size ls) in Hl. destruct ls; [apply PInv_new|]. unfold size in Hl. cbn [length] in Hl. lia.
    + destruct Hh as [<- _]. done.
  - change (m_sorted_targets (BatchProof [] [])) with (@nil N). change (f_n (RamForest_new 0)) with 0. change (size (@nil N)) with 0. lia.
  - rewrite list_to_set_nil, difference_empty_L, union_empty_l_L. done.
  - rewrite list_to_set_nil, difference_empty_L, union_empty_l_L. done.
Qed.
Lemma ex_modify_cached H : exists f p f', recalls H f p {[10; 11; 12; 13]} {[10; 11; 12; 13]} /\
  (forall t, t ∈ [0; 1] -> exists h, F_GetLeaf f t = Ok h /\ h ∈ ({[10; 11; 12; 13]} : gmap.gset N)) /\
  (forall R r i, is_height (f_n f) R -> computed (f_n f) [0; 1] r i -> exists v, P_Read p (enc R r i) = Ok (Some v)) /\
  f_n f + size [(20, false)] < 2 ^ 31 + size [0; 1] /\ F_Modify H f [(20, false)] [0; 1] = Ok (true, f').
Proof.
  pose proof (run33'_ok H) as E. unfold run33' in E. apply bind_ok in E as ([b1 f] & E1 & E). apply bind_ok in E as ([b2 p] & E2 & E). cbn [fst snd] in E.
  apply bind_ok in E as (a & Ea & E). apply bind_ok in E as (b & Eb & E). apply bind_ok in E as (c & Ec & E). apply bind_ok in E as (d & Ed & E).
  apply bind_ok in E as (h0 & F0 & E). apply bind_ok in E as (h1 & F1 & E). apply bind_ok in E as ([b3 g] & E3 & E). cbn [fst snd] in E.
  injection E as -> -> -> -> -> -> -> -> -> En. exists f, p, g. split.
  { eapply recalls_eq; [apply (recall_start H adds33' f p); [exact (eq_refl Lt)|exact E1|exact E2]| |]; apply (bool_decide_unpack _); by vm_compute. }
  split. { intros t [->|[->|[]%elem_of_nil]%elem_of_cons]%elem_of_cons; [exists 10|exists 11]; (split; [exact F0 || exact F1|apply (bool_decide_unpack _); by vm_compute]). }
  rewrite En. split; [|split; [exact (eq_refl Lt)|exact E3]]. intros R r i HR%NumRows_height (Hnode & t & Ht & E). change (NumRows 4) with 2 in HR. subst R.
  assert (Hr : r <= 2) by (destruct (node_slot 4 r i Hnode) as [Hr _]; exact Hr).
  assert (r = 0 \/ r = 1 \/ r = 2) as [->|[->| ->]] by lia.
  - apply elem_of_cons in Ht as [->|[->|[]%elem_of_nil]%elem_of_cons]; [change (0 / 2 ^ 0) with 0 in E|change (1 / 2 ^ 0) with 1 in E]; subst i; [eexists; exact Ea|eexists; exact Eb].
  - assert (i = 0) as -> by (apply elem_of_cons in Ht as [->|[->|[]%elem_of_nil]%elem_of_cons]; by rewrite <- E). eexists. exact Ec.
  - assert (i = 0) as -> by (apply elem_of_cons in Ht as [->|[->|[]%elem_of_nil]%elem_of_cons]; by rewrite <- E). eexists. exact Ed.
Qed.
Lemma ex_proved : exists f us bp, reachable ex_H f us /\ is_height (f_n f) 3 /\ F_Prove f [11; 12; 15] = Ok (Some bp).
Proof.
  destruct ex_sync as (f & p & bp & _ & _ & _ & Hs & Hh & E & _). destruct (synced_holds ex_H f p ex_ls Hs Hh) as (us & Hr & _). exists f, us, bp. split; [done|].
  destruct Hh as [-> _]. split; [by apply NumRows_height|done].
Qed.
Lemma ex_foreign : exists f us, reachable ex_H f us /\ holds_leaves f ex_ls /\ 2 <= size ex_ls /\
  let ls1 := take (N.to_nat (size ex_ls - 2)) ex_ls in
  size ls1 + size [1; 3] = 7 /\ valid_targets 7 [1; 3] /\ NoDup (ls1 ++ [90; 91]) /\ ~ NoDup (ls1 ++ [90; 12]) /\ is_height (size ex_ls) 3 /\ is_height 7 3.
Proof.
  destruct ex_history as (f & u0 & _ & _ & Hr & Hh & _). exists f, [u0]. split; [done|]. split; [done|]. split; [done|]. intros ls1. split; [done|].
  split; [split; repeat constructor|]. split; [apply (bool_decide_unpack _); by vm_compute|]. split; [apply (bool_decide_unpack _); by vm_compute|]. split; by apply NumRows_height.
Qed.
Definition run52 (H : hash -> hash -> hash) : res (bool * bool * option (option (loc * inode) * bool)) :=
  let* f := F_Modify H (RamForest_new 0) adds33' [] in
  let* p := P_Modify H (Pollard_new 0) adds33' [] in
  Ok (f.1, p.1, match p_roots p.2 with
                | [r] => Some ((λ l, (l, default (INode 0 None None) (p_heap p.2 !! l))) <$> pr_node r,
                               match pr_node r with Some l => bool_decide (is_Some (p_heap p.2 !! l)) | None => false end)
                | _ => None
                end).
Lemma run52_ok H : exists l a b, run52 H = Ok (true, true, Some (Some (l, INode (H (H 10 11) (H 12 13)) (Some a) (Some b)), true)) /\ l <> rem /\ a <> rem.
Proof. eexists _, _, _. split; [vm_compute; reflexivity|]. split; discriminate. Qed.
Lemma ex_owned H : exists f p l l' lr, synced H f p /\ l <> rem /\ live p l /\ owns p l lr l' /\ l' <> rem.
Proof.
  destruct (run52_ok H) as (l & a & b & E & Hl & Ha). unfold run52 in E. apply bind_ok in E as ([b1 f] & E1 & E). apply bind_ok in E as ([b2 p] & E2 & E). cbn [fst snd] in E.
  remember (INode (H (H 10 11) (H 12 13)) (Some a) (Some b)) as nd eqn:End.
  injection E as -> -> E. exists f, p, l, a, false. split; [by eapply recalls_synced, (recall_start H adds33' f p); [exact (eq_refl Lt)|exact E1|exact E2]|]. split; [done|].
  clear E1 E2. destruct (p_roots p) as [|r [|? ?]] eqn:Er; [discriminate E| |discriminate E]. injection E as Eo Eb. destruct (pr_node r) as [l0|] eqn:En; [|discriminate Eo]. cbn in Eo. injection Eo as -> Ei.
  apply bool_decide_eq_true in Eb as [nd' Ed]. change (p_heap p !! l = Some nd') in Ed. rewrite Ed in Ei. cbn in Ei. subst nd'.
  split; [|split; [|done]].
  - eapply (live_root p 0 r); [by rewrite Er|done].
  - split; [done|]. exists nd. split; [done|]. by rewrite End.
Qed.
Lemma new_forest_refuted_lem H : exists n, 0 < n /\ forall (adds : list leaf) old, n + size adds < 2 ^ 64 ->
  (forall b f', F_Modify H (RamForest_new n) adds [] <> Ok (b, f')) /\ F_Commit (RamForest_new n) old = Abort.
Proof. exists 1. split; [done|]. intros adds old. by apply new_forest_lem. Qed.
Definition run50 (H : hash -> hash -> hash) : res (bool * bool * list hash * N * N) :=
  let* f := F_Modify H (RamForest_new 0) [(10, false); (11, false)] [] in
  let* g := F_Modify H (RamForest_new 0) [(11, false); (10, false); (12, false)] [] in
  let* a := F_GetLeaf f.2 0 in let* b := F_GetLeaf f.2 1 in let* c := F_GetLeaf g.2 0 in let* d := F_GetLeaf g.2 1 in
  Ok (f.1, g.1, [a; b; c; d], f_n f.2, f_n g.2).
Lemma run50_ok H : run50 H = Ok (true, true, [10; 11; 11; 10], 2, 3).
Proof. vm_compute. reflexivity. Qed.
Lemma ex_compare H : exists f us g vs, reachable H f us /\ reachable H g vs /\ f_n f = 2 /\ f_n g = 3 /\
  (forall i h, i < f_n f -> F_GetLeaf f i = Ok h -> exists j, j < f_n g /\ F_GetLeaf g j = Ok h) /\ F_GetLeaf f 0 = Ok 10 /\ F_GetLeaf g 0 = Ok 11.
Proof.
  pose proof (run50_ok H) as E. unfold run50 in E. apply bind_ok in E as ([b1 f] & E1 & E). apply bind_ok in E as ([b2 g] & E2 & E). cbn [fst snd] in E.
  apply bind_ok in E as (a & Ea & E). apply bind_ok in E as (b & Eb & E). apply bind_ok in E as (c & Ec & E). apply bind_ok in E as (d & Ed & E).
  injection E as -> -> -> -> -> -> Ef Eg. exists f, [], g, [].
  split. { eapply reach_modify; [apply reach_new| |exact E1]; exact (eq_refl Lt). }
  split. { eapply reach_modify; [apply reach_new| |exact E2]; exact (eq_refl Lt). }
  split; [exact Ef|]. split; [exact Eg|]. split; [|split; [exact Ea|exact Ec]]. rewrite Ef, Eg. intros i h Hi E. assert (i = 0 \/ i = 1) as [-> | ->] by lia.
  - rewrite Ea in E. exists 1. split; [exact (eq_refl Lt)|]. rewrite Ed. exact E.
  - rewrite Eb in E. exists 0. split; [exact (eq_refl Lt)|]. rewrite Ec. exact E.
Qed.
