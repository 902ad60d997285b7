(** * PosmapFacts: which keys the operations of a Pollard add to its position map (proofs) *)
From Verif Require Import Base StateModel ForestModel PollardModel.

Lemma bind_inv {A B} (m : res A) (k : A -> res B) y : bind m k = Ok y -> exists x, m = Ok x /\ k x = Ok y.
Proof. destruct m; [by eauto|done..]. Qed.
Lemma Ok_inv {A} (x y : A) : Ok x = Ok y -> x = y.
Proof. by injection 1. Qed.

(** The same keys. *)
Definition keys_same (m' m : gmap N N) : Prop := forall h, is_Some (m' !! h) <-> is_Some (m !! h).
Lemma keys_same_refl m : keys_same m m.
Proof. by intros h. Qed.
Lemma keys_same_trans m1 m2 m3 : keys_same m1 m2 -> keys_same m2 m3 -> keys_same m1 m3.
Proof. intros H1 H2 h. etransitivity; [apply (H1 h)|apply (H2 h)]. Qed.

Lemma shift_positions_keys off : forall hs m, keys_same (shift_positions m hs off) m.
Proof.
  induction hs as [|x hs IH]; intros m h; [done|]. unfold shift_positions. cbn [fold_left].
  etransitivity; [apply IH|]. destruct (m !! x) as [q|] eqn:Ex; [|done].
  destruct (decide (h = x)) as [->|Hne]; [rewrite lookup_insert, Ex; split; eauto|]. by rewrite lookup_insert_ne by done.
Qed.
Lemma P_UpdatePositionMapForSubtreeSwap_keys p a b p' : P_UpdatePositionMapForSubtreeSwap p a b = Ok p' ->
  keys_same (p_posmap p') (p_posmap p).
Proof.
  unfold P_UpdatePositionMapForSubtreeSwap. intros E. do 4 (apply bind_inv in E as (? & _ & E)).
  unfold P_UpdatePositionMapForRange in E. destruct (_ =? 0) in E; [apply Ok_inv in E as <-; apply keys_same_refl|].
  do 2 (apply bind_inv in E as (? & _ & E)). apply Ok_inv in E as <-. cbn [p_set_posmap p_posmap].
  eapply keys_same_trans; apply shift_positions_keys.
Qed.
Lemma hook_posmap p rp s x p' l : hook_in_sibling p rp s x = Ok (p', l) -> p_posmap p' = p_posmap p.
Proof.
  unfold hook_in_sibling. destruct s; [intros E; apply Ok_inv in E; by injection E as <- _|].
  destruct (alloc p _) as [p1 l1] eqn:Ea. unfold alloc in Ea. injection Ea as <- <-. destruct rp; [done|]. intros E.
  apply bind_inv in E as (? & _ & E). apply Ok_inv in E. by injection E as <- _.
Qed.
Lemma P_SwapSubTrees_posmap p a b p' q : P_SwapSubTrees p a b = Ok (p', q) -> p_posmap p' = p_posmap p.
Proof.
  unfold P_SwapSubTrees. intros E. apply bind_inv in E as ([[nf sf] rp] & _ & E). apply bind_inv in E as ([p1 sf'] & E1 & E).
  apply bind_inv in E as ([[[p2 nt] st'] rp'] & E2 & E). do 2 (apply bind_inv in E as (? & _ & E)). apply Ok_inv in E. injection E as <- _.
  cbn [p_set_heap p_posmap]. apply hook_posmap in E1. destruct (_ =? b) in E2.
  - apply Ok_inv in E2. injection E2 as <- _ _ _. done.
  - apply bind_inv in E2 as ([[? ?] ?] & _ & E2). apply bind_inv in E2 as ([p3 ?] & E3 & E2). apply hook_posmap in E3.
    apply Ok_inv in E2. injection E2 as <- _ _ _. congruence.
Qed.
Lemma P_do_swaps_keys ss : forall p p' qs, P_do_swaps p ss = Ok (p', qs) -> keys_same (p_posmap p') (p_posmap p).
Proof.
  induction ss as [|s ss IH]; intros p p' qs; cbn [P_do_swaps]; intros E.
  - apply Ok_inv in E. injection E as <- _. apply keys_same_refl.
  - apply bind_inv in E as (p1 & E1 & E). apply bind_inv in E as ([p2 d] & E2 & E). apply bind_inv in E as ([p3 qs'] & E3 & E).
    apply Ok_inv in E. injection E as <- _. apply P_UpdatePositionMapForSubtreeSwap_keys in E1. apply P_SwapSubTrees_posmap in E2.
    apply IH in E3. cbn [fst] in E3. rewrite E2 in E3. by eapply keys_same_trans.
Qed.

Section Keys.
Context (H : hash -> hash -> hash).
Lemma P_ReHash_posmap p x p' : P_ReHash H p x = Ok p' -> p_posmap p' = p_posmap p.
Proof.
  unfold P_ReHash. intros E. apply bind_inv in E as (s & _ & E). destruct (_ || _) in E; [by apply Ok_inv in E as <-|].
  do 4 (apply bind_inv in E as (? & _ & E)). by apply Ok_inv in E as <-.
Qed.
Lemma P_rehash_dirt_posmap n ds : forall p acc p' qs, P_rehash_dirt H p n ds acc = Ok (p', qs) -> p_posmap p' = p_posmap p.
Proof.
  induction ds as [|[|x parent] ds IH]; intros p acc p' qs; cbn [P_rehash_dirt]; intros E; [|done|].
  - apply Ok_inv in E. by injection E as <- _.
  - apply bind_inv in E as (p1 & E1 & E). apply bind_inv in E as (pp & _ & E). apply bind_inv in E as (acc' & _ & E).
    apply IH in E. apply P_ReHash_posmap in E1. congruence.
Qed.
Lemma P_remove_rows_keys n sws k : forall j p ds p' ds', P_remove_rows H k j n sws p ds = Ok (p', ds') -> keys_same (p_posmap p') (p_posmap p).
Proof.
  induction k as [|k IH]; intros j p ds p' ds'; cbn [P_remove_rows]; intros E.
  - apply Ok_inv in E. injection E as <- _. apply keys_same_refl.
  - apply bind_inv in E as ([p1 d1] & E1 & E). apply bind_inv in E as ([p2 d2] & E2 & E). cbn [fst snd] in *.
    apply IH in E. apply P_rehash_dirt_posmap in E2. rewrite E2 in E. eapply keys_same_trans; [exact E|].
    destruct (j <? size sws) in E1; [|apply Ok_inv in E1; injection E1 as <- _; apply keys_same_refl].
    apply bind_inv in E1 as (ss & _ & E1). apply bind_inv in E1 as ([p3 d3] & E3 & E1). apply Ok_inv in E1. injection E1 as <- _.
    by eapply P_do_swaps_keys.
Qed.

(** Adding leaves: only their hashes become keys. *)
Lemma P_MergeRoot_posmap p pp h p' : P_MergeRoot p pp h = Ok p' -> p_posmap p' = p_posmap p.
Proof.
  unfold P_MergeRoot. intros E. do 4 (apply bind_inv in E as (? & _ & E)). apply bind_inv in E as (h1 & _ & E).
  destruct (alloc _ _) as [p1 l1] eqn:Ea. unfold alloc in Ea. injection Ea as <- <-.
  do 3 (apply bind_inv in E as (? & _ & E)). by apply Ok_inv in E as <-.
Qed.
Lemma P_add_merge_posmap fuel : forall p st row root x pos p', P_add_merge H fuel p st row root x pos = Ok p' -> p_posmap p' = p_posmap p.
Proof.
  induction fuel as [|fuel IH]; intros p st row root x pos p'; cbn [P_add_merge]; intros E; apply bind_inv in E as (b & _ & E);
    (destruct b; [|by apply Ok_inv in E as <-]); [done|].
  apply bind_inv in E as (rnd & _ & E). apply bind_inv in E as (rh & _ & E). apply bind_inv in E as (pp & _ & E).
  apply bind_inv in E as (p1 & E1 & E). do 2 (apply bind_inv in E as (? & _ & E)). apply IH in E. apply P_MergeRoot_posmap in E1. congruence.
Qed.
Lemma P_add_leaf_keys p l p' h : P_add_leaf H p l = Ok p' -> is_Some (p_posmap p' !! h) -> is_Some (p_posmap p !! h) \/ h = l.1.
Proof.
  unfold P_add_leaf. intros E Hh. apply bind_inv in E as (p1 & E1 & E). apply bind_inv in E as (p2 & E2 & E).
  assert (Ep : p_posmap p' = p_posmap p2).
  { destruct (_ || _) in E; [by apply Ok_inv in E as <-|]. do 7 (apply bind_inv in E as (? & _ & E)). by apply Ok_inv in E as <-. }
  apply P_add_merge_posmap in E2. rewrite Ep, E2 in Hh. unfold P_NewLeaf in E1. destruct (alloc _ _) as [p3 l1] eqn:Ea.
  unfold alloc in Ea. injection Ea as <- <-. apply Ok_inv in E1 as <-. destruct l.2; [|by left].
  cbn [p_set_posmap p_set_roots p_posmap] in Hh. destruct (decide (h = l.1)) as [->|Hne]; [by right|]. left.
  by rewrite lookup_insert_ne in Hh by done.
Qed.
Lemma P_Add_keys (adds : list leaf) : forall p p' h, P_Add H p adds = Ok p' -> is_Some (p_posmap p' !! h) -> is_Some (p_posmap p !! h) \/ h ∈ adds.*1.
Proof.
  induction adds as [|l adds IH]; intros p p' h E Hh; [apply Ok_inv in E as <-; by left|].
  unfold P_Add in E. cbn [foldM] in E. apply bind_inv in E as (p1 & E1 & E).
  destruct (IH p1 p' h E Hh) as [H1|H1]; [|right; rewrite fmap_cons; by right].
  destruct (P_add_leaf_keys _ _ _ _ E1 H1) as [?| ->]; [by left|right]. rewrite fmap_cons. by left.
Qed.
(** Adding leaves removes no key. *)
Lemma P_add_leaf_keeps p l p' h : P_add_leaf H p l = Ok p' -> is_Some (p_posmap p !! h) \/ (l.2 = true /\ h = l.1) -> is_Some (p_posmap p' !! h).
Proof.
  unfold P_add_leaf. intros E Hh. apply bind_inv in E as (p1 & E1 & E). apply bind_inv in E as (p2 & E2 & E).
  assert (Ep : p_posmap p' = p_posmap p2).
  { destruct (_ || _) in E; [by apply Ok_inv in E as <-|]. do 7 (apply bind_inv in E as (? & _ & E)). by apply Ok_inv in E as <-. }
  apply P_add_merge_posmap in E2. rewrite Ep, E2. unfold P_NewLeaf in E1. destruct (alloc _ _) as [p3 l1] eqn:Ea.
  unfold alloc in Ea. injection Ea as <- <-. apply Ok_inv in E1 as <-. destruct l.2; [|by destruct Hh as [?|[? _]]].
  cbn [p_set_posmap p_set_roots p_posmap]. destruct (decide (h = l.1)) as [->|Hne]; [rewrite lookup_insert; eauto|].
  rewrite lookup_insert_ne by done. by destruct Hh as [?|[_ ?]].
Qed.
Lemma P_Add_keeps (adds : list leaf) : forall p p' h, P_Add H p adds = Ok p' -> is_Some (p_posmap p !! h) \/ (h, true) ∈ adds -> is_Some (p_posmap p' !! h).
Proof.
  induction adds as [|l adds IH]; intros p p' h E Hh; [apply Ok_inv in E as <-; by destruct Hh as [?|?%elem_of_nil]|].
  unfold P_Add in E. cbn [foldM] in E. apply bind_inv in E as (p1 & E1 & E). apply (IH p1 p' h E).
  destruct Hh as [Hh|[<-|Hh]%elem_of_cons]; [left; eapply P_add_leaf_keeps; [exact E1|by left]|left; eapply P_add_leaf_keeps; [exact E1|by right]|by right].
Qed.
End Keys.
