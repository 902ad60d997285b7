(** * PollardCount: CountNodes and NumCachedLeaves (proofs) *)
From stdpp Require Import sorting.
From Verif Require Import Base StateModel CodecModel ForestModel PollardModel PosSpec PosFacts PathFacts MerkleSpec CodecSpec CodecFacts TargetFacts ForestFacts
  RowFacts TransformFacts SpecFacts RemoveFacts ForestInv AddFacts PollardSpec PollardRep PollardOps PollardAdd PollardRemove PollardRows PollardInit PollardCreate PollardPrune.
From Coq Require Import ZifyBool ZifyNat ZifyN.
Ltac Zify.zify_post_hook ::= idtac.
Ltac dlia := zify; Z.div_mod_to_equations; lia.

(** ** The nodes of trees, as a list *)
Fixpoint subs (r : nat) (j : N) : list (nat * N) :=
  match r with
  | O => []
  | S r' => [(r', 2 * j); (r', 2 * j + 1)] ++ subs r' (2 * j) ++ subs r' (2 * j + 1)
  end.
Definition nodesT (T : list (N * N)) : list (nat * N) := concat ((λ t : N * N, (N.to_nat t.1, t.2) :: subs (N.to_nat t.1) t.2) <$> T).

Lemma under_self r j i : under (N.of_nat r, j) r i <-> i = j.
Proof. unfold under. cbn [fst snd]. rewrite N.sub_diag. change (2 ^ 0) with 1. rewrite N.div_1_r. split; [tauto|]. intros ->. split; [lia|done]. Qed.
Lemma subs_elem r : forall j r' i, (r', i) ∈ subs r j <-> (r' < r)%nat /\ under (N.of_nat r, j) r' i.
Proof.
  induction r as [|r IH]; intros j r' i; cbn [subs].
  - rewrite elem_of_nil. lia.
  - rewrite elem_of_app, !elem_of_cons, elem_of_nil, elem_of_app, !IH, under_merge. split.
    + intros [[E|[E|[]]]|[[Hl Hu]|[Hl Hu]]].
      * injection E as -> ->. split; [lia|]. right; left. apply under_root.
      * injection E as -> ->. split; [lia|]. right; right. apply under_root.
      * split; [lia|]. tauto.
      * split; [lia|]. tauto.
    + intros [Hl [[-> _]|Hu]]; [lia|]. destruct (decide (r' = r)) as [->|Hne].
      * left. rewrite !under_self in Hu. destruct Hu as [->| ->]; tauto.
      * right. destruct Hu; [left|right]; (split; [lia|done]).
Qed.
Lemma subs_NoDup r : forall j, NoDup (subs r j).
Proof.
  induction r as [|r IH]; intros j; cbn [subs]; [constructor|]. apply NoDup_app. split; [|split].
  - apply NoDup_cons. split; [|apply NoDup_singleton]. intros Hx%elem_of_list_singleton. injection Hx as Hx. lia.
  - intros [r' i] Hx [Hy|Hy]%elem_of_app; apply subs_elem in Hy as [Hy _]; apply elem_of_cons in Hx as [Hx|Hx%elem_of_list_singleton]; injection Hx as -> _; lia.
  - apply NoDup_app. split; [apply IH|]. split; [|apply IH]. intros [r' i] [_ [_ H1]]%subs_elem [_ [_ H2]]%subs_elem. cbn [fst snd] in *. lia.
Qed.
Lemma nodesT_elem T r i : (r, i) ∈ nodesT T <-> inT T r i.
Proof.
  unfold nodesT, inT. rewrite elem_of_list_join || idtac. setoid_rewrite elem_of_list_In. rewrite in_concat. split.
  - intros (l & Hl & Hx). apply in_map_iff in Hl as (t & <- & Ht). exists t. split; [done|]. apply elem_of_list_In in Hx. apply elem_of_cons in Hx as [E|[_ Hx]%subs_elem].
    + injection E as -> ->. destruct t as [a b]. cbn [fst snd]. pose proof (under_root (N.to_nat a) b) as Hu. by rewrite N2Nat.id in Hu.
    + rewrite N2Nat.id in Hx. by destruct t.
  - intros (t & Ht & Hu). exists ((N.to_nat t.1, t.2) :: subs (N.to_nat t.1) t.2). split; [apply in_map_iff; by exists t|]. apply elem_of_list_In, elem_of_cons.
    destruct (decide (r = N.to_nat t.1)) as [->|Hne].
    + left. destruct t as [a b]. cbn [fst snd] in *. destruct Hu as [_ Hu]. cbn [fst snd] in Hu. rewrite N2Nat.id, N.sub_diag in Hu. change (2 ^ 0) with 1 in Hu. rewrite N.div_1_r in Hu. by subst.
    + right. apply subs_elem. split; [destruct Hu; lia|]. rewrite N2Nat.id. by destruct t.
Qed.
Lemma nodesT_NoDup T : disj T -> NoDup T -> NoDup (nodesT T).
Proof.
  induction T as [|t T IH]; intros Hd Hnd; [constructor|]. apply NoDup_cons in Hnd as [Ht Hnd]. unfold nodesT. cbn [fmap list_fmap concat]. apply NoDup_app. split; [|split].
  - apply NoDup_cons. split; [|apply subs_NoDup]. intros [Hx _]%subs_elem. lia.
  - intros [r i] Hx Hy. change ((r, i) ∈ nodesT T) in Hy. apply nodesT_elem in Hy as (t' & Ht' & Hu').
    assert (Hx' : (r, i) ∈ nodesT [t]) by (unfold nodesT; cbn [fmap list_fmap concat]; by rewrite app_nil_r).
    apply nodesT_elem in Hx' as (t'' & ->%elem_of_list_singleton & Hu). apply Ht. rewrite (Hd t t' r i); [done|left|by right|done|done].
  - apply IH; [|done]. intros a b r i Ha Hb. apply Hd; by right.
Qed.

(** ** The traversal visits exactly the nodes that are present *)
Section Count.
Context (p : pollard) (T : list (N * N)) (L : lmap) (M : N -> bool) (HR : rep p T L M).
Let Hd := rp_disj _ _ _ _ HR.
Notation LL := (λ x : nat * N, L x.1 x.2).

Lemma kid_in r j : inT T (S r) j -> inT T r (2 * j) /\ inT T r (2 * j + 1).
Proof. intros Hj. destruct (half_2 j) as [E1 E2]. split; apply inT_kid; by rewrite ?E1, ?E2. Qed.
Lemma subs_absent r : forall j, inT T r j -> L r (hp T r j) = None -> omap LL (subs r j) = [].
Proof.
  induction r as [|r IH]; intros j Hj Hn; [done|]. destruct (half_2 j) as [E1 E2]. destruct (kid_in r j Hj) as [K1 K2]. cbn [subs].
  destruct (rep_absent p T L M HR r (2 * j)) as [A1 A2]; [by rewrite E1|by rewrite E1|]. destruct (rep_absent p T L M HR r (2 * j + 1)) as [B1 B2]; [by rewrite E2|by rewrite E2|].
  rewrite !omap_app, (IH _ K1 A2), (IH _ K2 B2). cbn [omap list_omap fst snd]. by rewrite A1, B1.
Qed.
Lemma reach_nil K h : reach K h None = [].
Proof. by destruct K. Qed.
Lemma reach_ok r : forall j K, (r < K)%nat -> inT T r j -> reach K (p_heap p) (L r (hp T r j)) ≡ₚ omap LL ((r, hp T r j) :: subs r j).
Proof.
  induction r as [|r IH]; intros j [|K] HK Hj; try lia.
  all: change (omap LL ((?a, ?b) :: ?l)) with (match L a b with Some y => y :: omap LL l | None => omap LL l end).
  all: match goal with |- context [reach _ _ (L ?a ?b)] => destruct (L a b) as [l|] eqn:El end.
  2: done. 3: { by rewrite reach_nil, subs_absent. }
  - cbn [reach subs]. destruct (rp_dom _ _ _ _ HR _ _ _ (inT_hp _ _ _ Hd Hj) El) as (Hne & _ & [nd End]). destruct (N.eqb_spec l rem) as [?|_]; [done|]. rewrite End.
    pose proof (rp_leaf _ _ _ _ HR j Hj) as E1. pose proof (rp_leaf' _ _ _ _ HR j Hj) as E2. rewrite El, (nc_some _ _ _ _ End) in E1. rewrite El, (nc_some _ _ _ _ End) in E2. cbn [niece] in E1, E2.
    rewrite E1, E2, reach_nil. unfold mark. destruct (M j); [|by rewrite reach_nil]. destruct K; [done|]. cbn [reach]. rewrite N.eqb_refl. done.
  - cbn [reach subs]. destruct (rp_dom _ _ _ _ HR _ _ _ (inT_hp _ _ _ Hd Hj) El) as (Hne & _ & [nd End]). destruct (N.eqb_spec l rem) as [?|_]; [done|]. rewrite End.
    destruct (half_2 j) as [D1 D2]. destruct (odd_2 j) as [O1 O2]. destruct (sib_2 j) as [S1 S2]. destruct (kid_in r j Hj) as [K1 K2].
    pose proof (rp_kid _ _ _ _ HR r (2 * j) ltac:(by rewrite D1)) as E1. pose proof (rp_kid _ _ _ _ HR r (2 * j + 1) ltac:(by rewrite D2)) as E2.
    rewrite D1, O1, El, (nc_some _ _ _ _ End) in E1. rewrite D2, O2, El, (nc_some _ _ _ _ End) in E2. cbn [niece] in E1, E2. rewrite E1, E2.
    assert (H1 : hp T r (2 * j) = 2 * j + 1) by (rewrite hp_kid; [done|done|by rewrite D1]). assert (H2 : hp T r (2 * j + 1) = 2 * j) by (rewrite hp_kid; [done|done|by rewrite D2]).
    pose proof (IH (2 * j) K ltac:(lia) K1) as I1. pose proof (IH (2 * j + 1) K ltac:(lia) K2) as I2. rewrite H1 in I1. rewrite H2 in I2. rewrite I1, I2.
    constructor. rewrite !omap_app. cbn [omap list_omap fst snd]. destruct (L r (2 * j)), (L r (2 * j + 1)); cbn [app]; solve_Permutation.
Qed.
Lemma reach_all K : (forall t, t ∈ T -> (N.to_nat t.1 < K)%nat) -> concat ((λ r, reach K (p_heap p) (pr_node r)) <$> p_roots p) ≡ₚ omap LL (nodesT T).
Proof.
  intros Ht. change (λ r, reach K (p_heap p) (pr_node r)) with (reach K (p_heap p) ∘ pr_node).
  rewrite list_fmap_compose, (rp_roots _ _ _ _ HR). unfold nodesT. rewrite <- list_fmap_compose.
  assert (Hall : forall t, t ∈ T -> reach K (p_heap p) (L (N.to_nat t.1) t.2) ≡ₚ omap LL ((N.to_nat t.1, t.2) :: subs (N.to_nat t.1) t.2)).
  { intros [a b] Hx. cbn [fst snd]. assert (Hr : (N.of_nat (N.to_nat a), b) ∈ T) by (by rewrite N2Nat.id).
    pose proof (reach_ok (N.to_nat a) b K (Ht _ Hx) (inT_root _ _ _ Hr)) as E. rewrite hp_root in E by exact Hr. exact E. }
  clear Ht. clear Hd HR. revert Hall. generalize T as T'. induction T' as [|t T' IH]; intros Hall; [done|]. cbn [fmap list_fmap concat]. rewrite omap_app, <- Hall by left. apply Permutation_app; [done|].
  apply IH. intros; apply Hall; by right.
Qed.
Lemma p_reach_ok : (forall t, t ∈ T -> (N.to_nat t.1 < 70)%nat) -> p_reach p ≡ₚ omap LL (nodesT T).
Proof. exact (reach_all 70). Qed.
Lemma stored_NoDup : NoDup T -> NoDup (omap LL (nodesT T)).
Proof.
  intros Hnd. pose proof (nodesT_NoDup T Hd Hnd) as HN. assert (Hin : forall x, x ∈ nodesT T -> inT T x.1 x.2) by (intros [r i] Hx; by apply nodesT_elem).
  revert HN Hin. generalize (nodesT T) as l. induction l as [|[r i] l IH]; intros HN Hin; [constructor|]. apply NoDup_cons in HN as [Hx HN]. cbn [omap list_omap fst snd].
  destruct (L r i) as [a|] eqn:Ea; [|apply IH; [done|intros; apply Hin; by right]]. apply NoDup_cons. split; [|apply IH; [done|intros; apply Hin; by right]].
  intros ([r' i'] & Hy & E)%elem_of_list_omap. cbn [fst snd] in E. destruct (rp_inj _ _ _ _ HR r i r' i' a) as [-> ->]; [apply (Hin (r, i)); left|apply (Hin (r', i')); by right|done|done|done].
Qed.

(** ** Remembered leaves *)
Definition sumN (l : list N) : N := foldr N.add 0 l.
Lemma sumN_perm l l' : l ≡ₚ l' -> sumN l = sumN l'.
Proof. induction 1; unfold sumN in *; cbn [foldr]; lia. Qed.
Lemma sum_map {A} (f : A -> N) l : foldr (fun x a => f x + a) 0 l = sumN (f <$> l).
Proof. induction l as [|x l IH]; [done|]. cbn [foldr fmap list_fmap sumN]. by rewrite IH. Qed.

Definition marked (x : nat * N) : bool := (x.1 =? 0)%nat && M x.2.
Lemma refs_ok r i l : inT T r i -> L r i = Some l -> rem_refs (p_heap p) l = if marked (r, hp T r i) then 1 else 0.
Proof.
  intros Hi El. destruct (rp_dom _ _ _ _ HR _ _ _ Hi El) as (Hne & _ & [nd End]). unfold rem_refs, marked. rewrite End. cbn [fst snd].
  pose proof (inT_hp _ _ _ Hd Hi) as Hj. pose proof (hp_hp T r i Hd Hi) as Hh. remember (hp T r i) as j eqn:Ej. clear Ej. destruct r as [|r].
  - pose proof (rp_leaf _ _ _ _ HR j Hj) as E1. pose proof (rp_leaf' _ _ _ _ HR j Hj) as E2. rewrite Hh, El, (nc_some _ _ _ _ End) in E1. rewrite Hh, El, (nc_some _ _ _ _ End) in E2.
    cbn [niece] in E1, E2. rewrite E1, E2. cbn [Nat.eqb andb]. unfold mark. by destruct (M j).
  - destruct (half_2 j) as [D1 D2]. destruct (odd_2 j) as [O1 O2]. destruct (kid_in r j Hj) as [K1 K2].
    pose proof (rp_kid _ _ _ _ HR r (2 * j) ltac:(by rewrite D1)) as E1. pose proof (rp_kid _ _ _ _ HR r (2 * j + 1) ltac:(by rewrite D2)) as E2.
    rewrite D1, O1, Hh, El, (nc_some _ _ _ _ End) in E1. rewrite D2, O2, Hh, El, (nc_some _ _ _ _ End) in E2. cbn [niece] in E1, E2. rewrite E1, E2. cbn [Nat.eqb andb].
    assert (Hno : forall y, inT T r y -> is_rem (L r y) = false).
    { intros y Hy. destruct (L r y) as [a|] eqn:Ea; [|done]. destruct (rp_dom _ _ _ _ HR _ _ _ Hy Ea) as (Ha & _). cbn [is_rem]. by apply N.eqb_neq. }
    by rewrite (Hno _ K1), (Hno _ K2).
Qed.
Lemma mark_stored i : inT T 0 i -> M i = true -> is_Some (L 0%nat (hp T 0 i)).
Proof.
  intros Hi Hm. pose proof (rp_leaf _ _ _ _ HR i Hi) as E. rewrite Hm in E. destruct (L 0%nat (hp T 0 i)); [done|]. done.
Qed.
Lemma hp_perm : NoDup T -> (λ x : nat * N, (x.1, hp T x.1 x.2)) <$> nodesT T ≡ₚ nodesT T.
Proof.
  intros Hnd. pose proof (nodesT_NoDup T Hd Hnd) as HN. apply NoDup_Permutation; [|done|].
  - apply NoDup_fmap_2_strong; [|done]. intros [r i] [r' i'] Hx%nodesT_elem Hy%nodesT_elem E. cbn [fst snd] in E. injection E as -> E. f_equal. by apply (hp_inj T r').
  - intros [r i]. rewrite elem_of_list_fmap. split.
    + intros ([r' i'] & E & Hx%nodesT_elem). cbn [fst snd] in E. injection E as -> ->. apply nodesT_elem. by apply inT_hp.
    + intros Hx%nodesT_elem. exists (r, hp T r i). cbn [fst snd]. split; [by rewrite hp_hp|]. apply nodesT_elem. by apply inT_hp.
Qed.
Lemma count_marked (l : list (nat * N)) : sumN ((λ x, if marked x then 1 else 0) <$> l) = size (filter (λ x, marked x = true) l).
Proof.
  induction l as [|x l IH]; [done|]. cbn [fmap list_fmap sumN foldr]. fold (sumN ((λ x, if marked x then 1 else 0) <$> l)). rewrite IH, filter_cons. destruct (marked x) eqn:E.
  - rewrite decide_True by done. unfold size. cbn [length]. lia.
  - by rewrite decide_False by done.
Qed.
Lemma NumCached_ok : NoDup T -> (forall t, t ∈ T -> (N.to_nat t.1 < 70)%nat) -> P_NumCachedLeaves p = size (filter (λ x, marked x = true) (nodesT T)).
Proof.
  intros Hnd Ht. pose proof (stored_NoDup Hnd) as Hst. pose proof (p_reach_ok Ht) as Hp. unfold P_NumCachedLeaves. rewrite sum_map.
  assert (Hp' : elements (list_to_set (p_reach p) : gmap.gset N) ≡ₚ omap LL (nodesT T)).
  { rewrite elements_list_to_set; [done|]. by rewrite Hp. }
  rewrite (sumN_perm _ (rem_refs (p_heap p) <$> omap LL (nodesT T))) by (by rewrite Hp'). clear Hp Hp'.
  assert (E : sumN (rem_refs (p_heap p) <$> omap LL (nodesT T)) = sumN ((λ x, if marked x then 1 else 0) <$> ((λ x : nat * N, (x.1, hp T x.1 x.2)) <$> nodesT T))).
  { assert (Hin : forall x, x ∈ nodesT T -> inT T x.1 x.2) by (intros [r i] Hx; by apply nodesT_elem).
    revert Hin. generalize (nodesT T) as l. clear Hst. induction l as [|[r i] l IH]; intros Hin; [done|]. change (omap LL ((r, i) :: l)) with (match L r i with Some y => y :: omap LL l | None => omap LL l end). rewrite !fmap_cons. cbn [fst snd].
    pose proof (Hin (r, i) ltac:(left)) as Hri. cbn [fst snd] in Hri.
    specialize (IH ltac:(intros; apply Hin; by right)). destruct (L r i) as [a|] eqn:Ea.
    - rewrite fmap_cons. unfold sumN in IH |- *. cbn [foldr]. rewrite IH, (refs_ok r i a) by done. done.
    - rewrite IH. unfold sumN. cbn [foldr].
      unfold marked at 2. cbn [fst snd]. destruct r as [|r]; [|done]. cbn [Nat.eqb andb]. destruct (M (hp T 0 i)) eqn:Em; [|done].
      apply mark_stored in Em; [|by apply inT_hp]. rewrite hp_hp in Em by done. rewrite Ea in Em. by destruct Em. }
  rewrite E, count_marked. unfold size. f_equal. apply Permutation_length. by rewrite hp_perm.
Qed.
End Count.

(** ** On a whole forest *)
Lemma trees_low n t : n <= 2 ^ 62 -> t ∈ trees n -> (N.to_nat t.1 < 70)%nat.
Proof.
  intros Hn Ht. destruct t as [r i]. apply trees_elem in Ht as [Ht _]. apply node_row in Ht. pose proof (NumRows_mono n (2 ^ 62) Hn) as Hm.
  assert (E : NumRows (2 ^ 62) = 62) by done. rewrite E in Hm. cbn [fst]. lia.
Qed.
Lemma leaves_perm n : n <= 2 ^ 62 -> snd <$> filter (λ x : nat * N, x.1 = 0%nat) (nodesT (trees n)) ≡ₚ nseq 0 n.
Proof.
  intros Hn. pose proof (nodesT_NoDup (trees n) (trees_disj n) (trees_nodup n)) as HN. apply NoDup_Permutation; [|apply nseq_NoDup|].
  - apply NoDup_fmap_2_strong; [|by apply NoDup_filter]. intros [r i] [r' i'] [Hx _]%elem_of_list_filter [Hy _]%elem_of_list_filter E. cbn [fst snd] in *. congruence.
  - intros i. rewrite nseq_elem, elem_of_list_fmap. split.
    + intros ([r i'] & -> & [E Hx%nodesT_elem]%elem_of_list_filter). cbn [fst snd] in *. subst r. apply trees_under in Hx. unfold node in Hx. change (2 ^ N.of_nat 0) with 1 in Hx. lia.
    + intros Hi. exists (0%nat, i). split; [done|]. apply elem_of_list_filter. split; [done|]. apply nodesT_elem, trees_under. unfold node. change (2 ^ N.of_nat 0) with 1. lia.
Qed.
Lemma NumCached_leaves n p L M : n <= 2 ^ 62 -> rep p (trees n) L M -> P_NumCachedLeaves p = size (filter (λ i, M i = true) (nseq 0 n)).
Proof.
  intros Hn HR. rewrite (NumCached_ok p (trees n) L M HR (trees_nodup n)) by (intros; by eapply trees_low). unfold size. f_equal.
  rewrite <- (Permutation_length (filter_Permutation (λ i, M i = true) _ _ (leaves_perm n Hn))). clear.
  induction (nodesT (trees n)) as [|[r i] l IH]; [done|]. rewrite (filter_cons _ (r, i)), (filter_cons (λ x : nat * N, x.1 = 0%nat)). unfold marked at 1. cbn [fst snd].
  destruct r as [|r]; cbn [Nat.eqb andb].
  - rewrite (decide_True _ _ (eq_refl : 0%nat = 0%nat)) || idtac. destruct (decide (0%nat = 0%nat)); [|done]. rewrite fmap_cons, filter_cons. cbn [snd]. destruct (decide (M i = true)); cbn [length]; by rewrite IH.
  - destruct (decide (false = true)); [done|]. destruct (decide (S r = 0%nat)); [done|]. exact IH.
Qed.
Lemma CountNodes_ok n p L M : n <= 2 ^ 62 -> rep p (trees n) L M -> P_CountNodes p = w64 (size (filter (λ x : nat * N, is_Some (L x.1 x.2)) (nodesT (trees n)))).
Proof.
  intros Hn HR. unfold P_CountNodes. f_equal. unfold size. f_equal. rewrite (p_reach_ok p (trees n) L M HR) by (intros; by eapply trees_low). clear.
  induction (nodesT (trees n)) as [|x l IH]; [done|]. rewrite filter_cons. cbn [omap list_omap]. destruct (L x.1 x.2) as [a|] eqn:E.
  - rewrite decide_True by done. cbn [length]. f_equal. exact IH.
  - rewrite decide_False by (by intros [? ?]). exact IH.
Qed.
