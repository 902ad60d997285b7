(** * PollardRows: the nodes of a proof tree, row by row (proofs) *)
From stdpp Require Import sorting.
From Verif Require Import Base StateModel CodecModel ForestModel PollardModel PosSpec PosFacts PathFacts MerkleSpec CodecSpec CodecFacts TargetFacts ForestFacts
  RowFacts TransformFacts RemoveFacts ForestInv ForestSpec ProofSpec ProveFacts PollardRep PollardOps PollardAdd PollardRemove.
From Coq Require Import ZifyBool ZifyNat ZifyN.
Ltac Zify.zify_post_hook ::= idtac.
Ltac dlia := zify; Z.div_mod_to_equations; lia.

Lemma ssorted_filter (P : N -> Prop) `{forall x, Decision (P x)} (l : list N) : StronglySorted N.lt l -> StronglySorted N.lt (filter P l).
Proof.
  induction 1 as [|x l Hs IH Hf]; [constructor|]. rewrite filter_cons. destruct (decide (P x)); [|done]. constructor; [done|].
  apply Forall_forall. intros y [_ Hy]%elem_of_list_filter. rewrite Forall_forall in Hf. by apply Hf.
Qed.
Lemma ssorted_eq (a b : list N) : StronglySorted N.lt a -> StronglySorted N.lt b -> (forall x, x ∈ a <-> x ∈ b) -> a = b.
Proof.
  intros Ha Hb Hx. apply (StronglySorted_unique N.le); [by apply sorted_lt_le|by apply sorted_lt_le|].
  apply NoDup_Permutation; [by apply sorted_lt_NoDup|by apply sorted_lt_NoDup|done].
Qed.
Lemma nseq_sorted a k : StronglySorted N.lt (nseq a k).
Proof.
  induction k as [|k IH] using N_ind1; [constructor|]. rewrite nseq_snoc. apply sorted_app_lt; [done|repeat constructor|].
  intros x y Hx%nseq_elem Hy%elem_of_list_singleton. lia.
Qed.
Definition kids (l : list N) : list N := mjoin ((λ d : N, [2 * d; 2 * d + 1]) <$> l).
Lemma kids_cons d l : kids (d :: l) = 2 * d :: 2 * d + 1 :: kids l.
Proof. done. Qed.
Lemma kids_app a b : kids (a ++ b) = kids a ++ kids b.
Proof. induction a as [|d a IH]; [done|]. cbn [app]. rewrite !kids_cons. cbn [app]. by rewrite IH. Qed.
Lemma kids_elem l x : x ∈ kids l <-> x / 2 ∈ l.
Proof.
  induction l as [|d l IH]; [split; by intros ?%elem_of_nil|]. rewrite kids_cons, !elem_of_cons, IH. split.
  - intros [->|[->|?]]; [left; apply half_2|left; apply half_2|by right].
  - intros [E|?]; [|by do 2 right]. destruct (two_half x) as [Ex|Ex]; rewrite E in Ex; auto.
Qed.
Lemma kids_sorted l : StronglySorted N.lt l -> StronglySorted N.lt (kids l).
Proof.
  induction 1 as [|d l Hs IH Hf]; [constructor|]. rewrite kids_cons. rewrite Forall_forall in Hf.
  assert (Hk : forall x, x ∈ kids l -> 2 * d + 1 < x).
  { intros x Hx%kids_elem. apply Hf in Hx. dlia. }
  constructor; [constructor; [done|by apply Forall_forall]|]. apply Forall_forall. intros x [->|Hx]%elem_of_cons; [lia|]. apply Hk in Hx. lia.
Qed.

Section Rows.
Context (n : N) (ts : list N).
Notation R := (NumRows n).
Notation T := (trees n).

Lemma nmax r i : node n r i <-> i < n / 2 ^ r.
Proof. unfold node. pose proof (pow_pos r). generalize dependent (2 ^ r). intros P HP. split; intros Hx.
  - assert (i + 1 <= n / P); [|lia]. apply N.div_le_lower_bound; lia.
  - pose proof (N.mul_div_le n P ltac:(lia)). nia.
Qed.
Definition cmpb (r : nat) (i : N) : bool := bool_decide (i ∈ (λ t, t / 2 ^ N.of_nat r) <$> ts) && (i <? n / 2 ^ N.of_nat r).
Lemma cmpb_iff r i : cmpb r i = true <-> computed n ts (N.of_nat r) i.
Proof.
  unfold cmpb, computed. rewrite andb_true_iff, bool_decide_eq_true, N.ltb_lt, elem_of_list_fmap, <- nmax. split.
  - intros [(t & -> & Ht) Hi]. split; [done|]. by exists t.
  - intros [Hi (t & Ht & <-)]. split; [by exists t|done].
Qed.
Definition crow (r : nat) : list N := filter (λ i, cmpb r i = true) (nseq 0 (n / 2 ^ N.of_nat r)).
Lemma crow_elem r i : i ∈ crow r <-> computed n ts (N.of_nat r) i.
Proof.
  unfold crow. rewrite elem_of_list_filter, nseq_elem, cmpb_iff. split; [tauto|]. intros Hc. split; [done|]. destruct Hc as [Hc _].
  apply nmax in Hc. lia.
Qed.
Lemma crow_sorted r : StronglySorted N.lt (crow r).
Proof. apply ssorted_filter, nseq_sorted. Qed.
Lemma crow_node r i : i ∈ crow r -> node n (N.of_nat r) i.
Proof. intros Hi%crow_elem. apply Hi. Qed.

Definition rootl (r : nat) : list N := filter (λ i, (N.of_nat r, i) ∈ T) (crow r).
Lemma root_max r i j : (N.of_nat r, i) ∈ T -> node n (N.of_nat r) j -> j <= i.
Proof.
  intros [_ Hi]%trees_elem Hj%nmax. rewrite nmax in Hi. replace (N.of_nat r + 1) with (N.of_nat (S r)) in Hi by lia.
  rewrite pow_nat_S, N.mul_comm, <- N.div_div in Hi by (pose proof (pow_pos (N.of_nat r)); lia). dlia.
Qed.
Lemma rootl_cases r : (rootl r = [] /\ forall i, i ∈ crow r -> (N.of_nat r, i) ∉ T) \/
  exists i, rootl r = [i] /\ (N.of_nat r, i) ∈ T /\ i ∈ crow r /\ last (crow r) = Some i.
Proof.
  destruct (rootl r) as [|i l] eqn:E.
  - left. split; [done|]. intros i Hi Hr. assert (Hx : i ∈ rootl r) by (apply elem_of_list_filter; done). rewrite E in Hx. by apply elem_of_nil in Hx.
  - right. exists i. assert (Hi : i ∈ rootl r) by (rewrite E; left). apply elem_of_list_filter in Hi as [Hr Hi].
    assert (l = []) as ->.
    { destruct l as [|j l]; [done|]. exfalso. assert (Hj : j ∈ rootl r) by (rewrite E; right; left). apply elem_of_list_filter in Hj as [Hrj Hj].
      pose proof (root_max r i j Hr (crow_node _ _ Hj)). assert (Hs : StronglySorted N.lt (rootl r)) by (apply ssorted_filter, crow_sorted).
      rewrite E in Hs. apply StronglySorted_inv in Hs as [_ Hf]. apply Forall_inv in Hf. lia. }
    split; [done|]. split; [done|]. split; [done|].
    pose proof (crow_sorted r) as Hs. destruct (last (crow r)) as [j|] eqn:El.
    + assert (Hj : j ∈ crow r) by (by apply last_Some_elem_of). pose proof (root_max r i j Hr (crow_node _ _ Hj)).
      rewrite (last_removelast _ _ El) in Hs, Hi. apply sorted_snoc in Hs as [_ Hs]. apply elem_of_app in Hi as [Hi|Hi%elem_of_list_singleton].
      * apply Hs in Hi. lia.
      * by rewrite Hi.
    + apply last_None in El. rewrite El in Hi. by apply elem_of_nil in Hi.
Qed.
Definition srow (r : nat) : list N := kids (crow (S r)) ++ rootl r.
Lemma srow_sorted r : StronglySorted N.lt (srow r).
Proof.
  apply sorted_app_lt; [apply kids_sorted, crow_sorted|apply ssorted_filter, crow_sorted|].
  intros x y Hx%kids_elem%crow_node [Hy _]%elem_of_list_filter.
  assert (Hx' : node n (N.of_nat r) x) by (by apply trees_under, inT_kid, trees_under).
  pose proof (root_max r y x Hy Hx'). assert (x <> y); [|lia]. intros ->.
  apply (kid_not_root T r y (trees_disj n)); [by apply trees_under|done].
Qed.
Lemma srow_elem r i : i ∈ srow r <-> computed n ts (N.of_nat r) i \/ needed n ts (N.of_nat r) i.
Proof.
  unfold srow. rewrite elem_of_app, kids_elem, crow_elem. unfold rootl. rewrite elem_of_list_filter, crow_elem. split.
  - intros [Hd|[_ ?]]; [|by left]. destruct (computed_kid n ts r _ Hd) as (c & Hc & E).
    destruct (decide (c = i)) as [->|Hne]; [by left|]. assert (Es : i = sib c) by (by apply sib_pair).
    rewrite Es. apply computed_sib; [done|]. apply (kid_not_root T r c (trees_disj n)). rewrite E. apply trees_under. apply Hd.
  - intros [Hc|Hx].
    + destruct (decide ((N.of_nat r, i) ∈ T)) as [Hr|Hr]; [by right|left]. apply computed_up; [done|]. apply trees_up; [apply Hc|done].
    + left. destruct Hx as (Hc & Hr & _). rewrite <- sib_half. apply computed_up; [done|]. apply trees_up; [apply Hc|]. by rewrite trees_elem.
Qed.
Lemma srow_node r i : i ∈ srow r -> node n (N.of_nat r) i.
Proof.
  unfold srow. rewrite elem_of_app, kids_elem. intros [Hx%crow_node|[_ Hx]%elem_of_list_filter]; [|by apply crow_node].
  by apply trees_under, inT_kid, trees_under.
Qed.
Lemma srow_comp r : filter (λ i, cmpb r i = true) (srow r) = crow r.
Proof.
  apply ssorted_eq; [apply ssorted_filter, srow_sorted|apply crow_sorted|]. intros x. rewrite elem_of_list_filter, srow_elem, crow_elem, cmpb_iff. tauto.
Qed.
Definition nrow (r : nat) : list N := filter (λ i, cmpb r i = false) (srow r).
Lemma cmpb_false r i : cmpb r i = false <-> ~ computed n ts (N.of_nat r) i.
Proof. rewrite <- cmpb_iff. by destruct (cmpb r i). Qed.
Lemma nrow_elem r i : i ∈ nrow r <-> needed n ts (N.of_nat r) i.
Proof.
  unfold nrow. rewrite elem_of_list_filter, srow_elem, cmpb_false. split; [tauto|]. intros Hx. split; [by destruct Hx as (_ & _ & ?)|by right].
Qed.
Lemma nrow_sorted r : StronglySorted N.lt (nrow r).
Proof. apply ssorted_filter, srow_sorted. Qed.
Lemma crow_top r : R < N.of_nat r -> crow r = [].
Proof. intros Hr. destruct (crow r) as [|i l] eqn:E; [done|]. assert (Hi : i ∈ crow r) by (rewrite E; left). apply crow_node, node_row in Hi. lia. Qed.
Lemma srow_top : srow (N.to_nat R) = rootl (N.to_nat R).
Proof. unfold srow. by rewrite crow_top by lia. Qed.

(** The positions that are still to be visited when the rows below [k] are left. *)
Fixpoint below (f : nat -> list N) (k : nat) : list N :=
  match k with O => [] | S k' => (enc R (N.of_nat k') <$> rev (f k')) ++ below f k' end.
Lemma below_elem f k x : x ∈ below f k <-> exists r i, (r < k)%nat /\ i ∈ f r /\ x = enc R (N.of_nat r) i.
Proof.
  induction k as [|k IH]; cbn [below]; [split; [by intros ?%elem_of_nil|intros (r & i & ? & _); lia]|].
  rewrite elem_of_app, IH, elem_of_list_fmap. split.
  - intros [(i & -> & Hi)|(r & i & Hr & Hi & ->)].
    + rewrite elem_of_list_In, <- in_rev, <- elem_of_list_In in Hi. exists k, i. split; [lia|done].
    + exists r, i. split; [lia|done].
  - intros (r & i & Hr & Hi & ->). destruct (decide (r = k)) as [->|Hne].
    + left. exists i. split; [done|]. by rewrite elem_of_list_In, <- in_rev, <- elem_of_list_In.
    + right. exists r, i. split; [lia|done].
Qed.
Lemma below_lists (Hn : n <= 2 ^ 62) (f : nat -> list N) (P : N -> N -> Prop) ps : (forall r, StronglySorted N.lt (f r)) -> (forall r i, i ∈ f r <-> P (N.of_nat r) i) ->
  (forall r i, i ∈ f r -> slot R (N.of_nat r) i) ->
  lists_nodes R P ps -> rev ps = below f (S (N.to_nat R)).
Proof.
  intros Hs Hf Hsl Hps. assert (E : ps = rev (below f (S (N.to_nat R)))); [|by rewrite E, rev_involutive].
  apply (lists_nodes_unique R P); [done|]. split.
  - clear Hps ps. generalize (S (N.to_nat R)). intros k. induction k as [|k IH]; cbn [below]; [constructor|]. rewrite rev_app_distr.
    rewrite <- map_rev, rev_involutive. apply sorted_app_lt; [done|apply (sorted_enc n Hn), Hs|].
    intros x y Hx Hy. rewrite elem_of_list_In, <- in_rev, <- elem_of_list_In in Hx. apply below_elem in Hx as (r & i & Hr & Hi & ->).
    apply elem_of_list_fmap in Hy as (j & -> & Hj). apply (enc_row_lt n Hn); [by apply Hsl|by apply Hsl|lia].
  - intros x. rewrite elem_of_list_In, <- in_rev, <- elem_of_list_In, below_elem. split.
    + intros (r & i & Hr & Hi & ->). exists (N.of_nat r), i. split; [by apply Hsl|]. split; [done|]. by apply Hf.
    + intros (r & i & [H1 H2] & -> & HP). exists (N.to_nat r), i. split; [lia|]. rewrite N2Nat.id. split; [|done]. apply Hf. by rewrite N2Nat.id.
Qed.
End Rows.
