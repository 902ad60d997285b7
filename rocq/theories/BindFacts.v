(** * BindFacts: the roots determine the leaves (proofs) *)
From Verif Require Import Base StateModel CodecModel ForestModel PollardModel PosSpec PosFacts MerkleSpec ForestSpec ForestInv ForestFacts HistFacts PosmapFacts PollardSpec PollardRep PollardAdd PollardHist PollardProps ForestExamples PollardExamples.
From Coq Require Import ZifyBool ZifyNat ZifyN.
Ltac Zify.zify_post_hook ::= idtac.

Section Bind.
Context (H : hash -> hash -> hash) (ls ls' : list hash).
Notation n := (size ls).
Notation g := (nh H (leaf_at ls)).
Notation g' := (nh H (leaf_at ls')).

(** The two sequences, hashed up, show a collision of [H]. *)
Definition clash : Prop := exists r d, node n (N.of_nat (S r)) d /\ (g r (2 * d), g r (2 * d + 1)) <> (g' r (2 * d), g' r (2 * d + 1)) /\
  H (g r (2 * d)) (g r (2 * d + 1)) = H (g' r (2 * d)) (g' r (2 * d + 1)).

Lemma bind_down rt it : g rt it = g' rt it -> forall d r i, (r + d = rt)%nat -> i / 2 ^ N.of_nat d = it ->
  (forall r' i', under (N.of_nat rt, it) r' i' -> node n (N.of_nat r') i') -> clash \/ g r i = g' r i.
Proof.
  intros Et. induction d as [|d IH]; intros r i Hr Hi Hn.
  - right. change (2 ^ N.of_nat 0) with 1 in Hi. rewrite N.div_1_r in Hi. subst. replace (r + 0)%nat with r in Et by lia. done.
  - assert (Hi' : i / 2 / 2 ^ N.of_nat d = it). { rewrite N.div_div by (try apply N.pow_nonzero; lia). rewrite <- Hi. f_equal. by rewrite Nat2N.inj_succ, N.pow_succ_r'. }
    destruct (IH (S r) (i / 2) ltac:(lia) Hi' Hn) as [Hc|E]; [by left|]. cbn [nh] in E.
    destruct (decide ((g r (2 * (i / 2)), g r (2 * (i / 2) + 1)) = (g' r (2 * (i / 2)), g' r (2 * (i / 2) + 1)))) as [Ep|Ep].
    + right. apply pair_equal_spec in Ep as [E1 E2]. by destruct (two_half i) as [Ex|Ex]; rewrite Ex.
    + left. exists r, (i / 2). split; [|split; [done|exact E]]. apply Hn. split; cbn [fst snd]; [lia|]. rewrite <- Hi'. f_equal. f_equal. lia.
Qed.
Lemma bind_leaf : size ls' = n -> spec_roots H ls = spec_roots H ls' -> forall i, i < n -> clash \/ leaf_at ls i = leaf_at ls' i.
Proof.
  intros En Er i Hi. assert (Hin : inT (trees n) 0 i) by (apply trees_under; unfold node; change (2 ^ N.of_nat 0) with 1; lia).
  destruct Hin as ([rt it] & Ht & [Hr Hi']). cbn [fst snd] in *. rewrite <- (N2Nat.id rt) in Ht, Hi'.
  apply (bind_down (N.to_nat rt) it) with (r := 0%nat) (d := N.to_nat rt); [|lia| |].
  - unfold spec_roots in Er. rewrite En in Er. apply elem_of_list_lookup in Ht as [j Ht]. apply (f_equal (.!! j)) in Er. rewrite !list_lookup_fmap, Ht in Er.
    cbn [fmap option_fmap option_map fst snd] in Er. apply (inj Some) in Er. by rewrite Nat2N.id in Er.
  - rewrite <- Hi'. f_equal. f_equal. lia.
  - intros r' i' Hu. apply trees_under. exists (N.of_nat (N.to_nat rt), it). done.
Qed.
Lemma bind_leaves : size ls' = n -> spec_roots H ls = spec_roots H ls' -> ls = ls' \/ clash.
Proof.
  intros En Er. assert (Hall : clash \/ forall i, i < n -> leaf_at ls i = leaf_at ls' i).
  { destruct (decide (Forall (λ i, leaf_at ls i = leaf_at ls' i) (nseq 0 n))) as [Hf|Hf].
    - right. intros i Hi. rewrite Forall_forall in Hf. apply Hf. apply nseq_elem. lia.
    - left. apply not_Forall_Exists in Hf; [|intros ?; apply _]. apply Exists_exists in Hf as (i & Hi & Hne). apply nseq_elem in Hi.
      destruct (bind_leaf En Er i ltac:(lia)) as [?|?]; done. }
  destruct Hall as [?|Hall]; [by right|left]. apply total_ext; [unfold size in En; lia|]. intros i Hi. specialize (Hall (N.of_nat i)).
  unfold leaf_at in Hall. rewrite Nat2N.id in Hall. apply Hall. unfold size. lia.
Qed.
End Bind.

Lemma C56_lem H f us f' us' ls ls' : reachable H f us -> reachable H f' us' -> holds_leaves f ls -> holds_leaves f' ls' ->
  f_n f = f_n f' -> F_Roots f = F_Roots f' -> ls = ls' \/ exists r d, node (f_n f) (N.of_nat (S r)) d /\
    (nh H (leaf_at ls) r (2 * d), nh H (leaf_at ls) r (2 * d + 1)) <> (nh H (leaf_at ls') r (2 * d), nh H (leaf_at ls') r (2 * d + 1)) /\
    H (nh H (leaf_at ls) r (2 * d)) (nh H (leaf_at ls) r (2 * d + 1)) = H (nh H (leaf_at ls') r (2 * d)) (nh H (leaf_at ls') r (2 * d + 1)).
Proof.
  intros Hr Hr' Hh Hh' En Er. destruct (reachable_holds H f us ls Hr Hh) as (Hi & _). destruct (reachable_holds H f' us' ls' Hr' Hh') as (Hi' & _).
  rewrite (inv_roots _ _ _ Hi), (inv_roots _ _ _ Hi') in Er. destruct Hh as [Hn _], Hh' as [Hn' _]. rewrite Hn.
  apply bind_leaves; [congruence|done].
Qed.
Lemma C56_pollard_lem H f p f' p' ls ls' : synced H f p -> synced H f' p' -> holds_leaves f ls -> holds_leaves f' ls' ->
  p_n p = p_n p' -> P_Roots p = P_Roots p' -> ls = ls' \/ exists r d, node (f_n f) (N.of_nat (S r)) d /\
    (nh H (leaf_at ls) r (2 * d), nh H (leaf_at ls) r (2 * d + 1)) <> (nh H (leaf_at ls') r (2 * d), nh H (leaf_at ls') r (2 * d + 1)) /\
    H (nh H (leaf_at ls) r (2 * d)) (nh H (leaf_at ls) r (2 * d + 1)) = H (nh H (leaf_at ls') r (2 * d)) (nh H (leaf_at ls') r (2 * d + 1)).
Proof.
  intros Hs Hs' Hh Hh' En Er. destruct (synced_holds H f p ls Hs Hh) as (us & Hr & _). destruct (synced_holds H f' p' ls' Hs' Hh') as (us' & Hr' & _).
  destruct (C25_lem H f p Hs) as [E1 E2], (C25_lem H f' p' Hs') as [E1' E2']. apply (C56_lem H f us f' us'); try done; [congruence|].
  rewrite E1, E1' in Er. by apply Ok_inv in Er.
Qed.

(** ** Two forests with the same roots and different leaves, for a hash with
    collisions. *)
Lemma grow_new H (adds : list leaf) : size adds < 2 ^ 31 -> NoDup adds.*1 -> exists f, F_Modify H (RamForest_new 0) adds [] = Ok (true, f) /\
  reachable H f [] /\ holds_leaves f adds.*1.
Proof.
  intros Hb Hnd. destruct (step_ok H (RamForest_new 0) [] [] adds []) as (u & f & EF & _ & _ & _ & Hh).
  - constructor.
  - split; [done|]. intros i Hi. change (size (@nil N)) with 0 in Hi. lia.
  - change (size (@nil N)) with 0. lia.
  - apply valid_nil.
  - done.
  - exists f. split; [exact EF|]. split; [|done]. eapply reach_modify; [apply reach_new| |exact EF]. change (f_n (RamForest_new 0)) with 0. change (size (@nil N)) with 0. lia.
Qed.
Lemma ex_clash : exists f f', reachable ex_H f [] /\ reachable ex_H f' [] /\ holds_leaves f [10; 11] /\ holds_leaves f' [15; 8] /\
  f_n f = f_n f' /\ F_Roots f = F_Roots f'.
Proof.
  destruct (grow_new ex_H [(10, false); (11, false)]) as (f & _ & Hr & Hh); [done|apply (bool_decide_unpack _); by vm_compute|].
  destruct (grow_new ex_H [(15, false); (8, false)]) as (f' & _ & Hr' & Hh'); [done|apply (bool_decide_unpack _); by vm_compute|].
  exists f, f'. split; [done|]. split; [done|]. split; [done|]. split; [done|].
  destruct (reachable_holds ex_H f [] _ Hr Hh) as (Hi & _), (reachable_holds ex_H f' [] _ Hr' Hh') as (Hi' & _). split.
  - destruct Hh as [-> _], Hh' as [-> _]. done.
  - rewrite (inv_roots _ _ _ Hi), (inv_roots _ _ _ Hi'). by vm_compute.
Qed.
