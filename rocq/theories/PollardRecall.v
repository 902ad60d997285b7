(** * PollardRecall: which leaves a pollard remembers (proofs) *)
From stdpp Require Import sorting.
From Verif Require Import Base StateModel CodecModel ForestModel PollardModel PosSpec PosFacts PathFacts MerkleSpec CodecSpec CodecFacts TargetFacts ForestFacts
  RowFacts TransformFacts SpecFacts RemoveFacts ForestInv AddFacts ForestSpec HistFacts ProofSpec ProveFacts PollardSpec PollardRep PollardOps PollardAdd PollardRemove PollardRows PollardInit PollardCreate
  PollardVerify PollardVerifyMain PollardPrune PollardHist PollardProps PollardCount.
From Coq Require Import ZifyBool ZifyNat ZifyN.
Ltac Zify.zify_post_hook ::= idtac.
Ltac dlia := zify; Z.div_mod_to_equations; lia.

Section Recall.
Context (H : hash -> hash -> hash).
Notation hset := (gmap.gset N).

(** The remembered leaves are between [lo] and [hi]. *)
Definition marks_in (ls : list hash) (M : N -> bool) (lo hi : hset) : Prop :=
  (forall h, h ∈ lo -> h ∈ ls) /\ (forall i, i < size ls -> leaf_at ls i ∈ lo -> M i = true) /\ forall i, i < size ls -> M i = true -> leaf_at ls i ∈ hi.

Lemma marks_grown ls ts M0 M lo hi (hi' : hset) : grown_marks ls ts M0 M -> marks_in ls M0 lo hi -> (forall h, h ∈ hi -> h ∈ hi') ->
  (forall t, t ∈ ts -> t < size ls -> leaf_at ls t ∈ hi') -> marks_in ls M lo hi'.
Proof.
  intros [G1 G2] (H1 & H2 & H3) Hhi Hts. split; [done|]. split.
  - intros i Hi Hl. apply G1; [done|]. by apply H2.
  - intros i Hi HM. destruct (G2 i Hi HM) as [HM0|Ht]; [by apply Hhi, H3|by apply Hts].
Qed.

Lemma recalls_synced f p lo hi : recalls H f p lo hi -> synced H f p.
Proof.
  induction 1; [constructor|by eapply sy_restore|by eapply sy_verify|by eapply sy_verify|by eapply sy_prune|by eapply sy_modify|by eapply sy_stored].
Qed.
Lemma synced_recalls f p : synced H f p -> exists lo hi, recalls H f p lo hi.
Proof.
  induction 1 as [|f us p Hr E|f p bp ths b p' Hs (lo & hi & IH) Hv|f p p' Hs (lo & hi & IH) E|f p bp ths p1 adds f' p' Hs (lo & hi & IH) Hv Hb EF EP|f p adds ts f' p' Hs (lo & hi & IH) Hst Hb EF EP].
  - exists ∅, ∅. constructor.
  - exists ∅, ∅. by eapply rc_restore.
  - destruct b; [eexists _, _; by eapply rc_accept|]. destruct (synced_inv H f p Hs) as (us & ls & Hr & [Hfn Hg] & _).
    exists lo, (hi ∪ list_to_set (leaf_at ls <$> filter (λ t, t < size ls) (m_sorted_targets bp))). eapply rc_reject; [done|done|]. intros h. rewrite elem_of_union, elem_of_list_to_set, elem_of_list_fmap.
    apply or_iff_compat_l. split.
    + intros (t & -> & [Hlt Ht]%elem_of_list_filter). exists t. rewrite Hfn. split; [done|]. split; [done|]. by apply Hg.
    + intros (t & Ht & Hlt & E). rewrite Hfn in Hlt. exists t. rewrite (Hg t Hlt) in E. injection E as <-. split; [done|]. by apply elem_of_list_filter.
  - eexists ∅, ∅. by eapply rc_prune.
  - eexists _, _. by eapply rc_modify.
  - destruct (synced_inv H f p Hs) as (us & ls & Hr & Hh & _). destruct (stored_targets H f us ls adds ts f' Hr Hh Hb EF) as [Hv _].
    eexists _, _. eapply rc_stored; [done|done| |done|done|done]. by apply (stored_hashes f ls).
Qed.

Lemma recalls_iff f p : synced H f p <-> exists lo hi, recalls H f p lo hi.
Proof. split; [apply synced_recalls|]. intros (lo & hi & Hr). by eapply recalls_synced. Qed.

Lemma tight_roots T L M : disj T -> (forall r x, is_Some (L r x) -> (N.of_nat r, x) ∈ T) -> tight T L M.
Proof. intros Hd Hr r x Hx Hl. apply Hr in Hl. by apply (kid_not_root T r x Hd) in Hl. Qed.
Lemma PTight_roots p n L M : n <= 2 ^ 62 -> p_n p = n -> rep p (trees n) L M -> (forall r x, is_Some (L r x) -> (N.of_nat r, x) ∈ trees n) -> PTight p n M.
Proof. intros Hn Hpn HR Hr. apply (PTight_iff p n L M M Hn Hpn HR). apply tight_roots; [apply HR|done]. Qed.

(** What an induction over histories keeps. *)
Definition rinv (f : forest) (p : pollard) (lo hi : hset) : Prop := exists us ls M, reachable H f us /\ holds_leaves f ls /\ size ls < 2 ^ 31 /\ (PMark H p ls M /\ PTight p (size ls) M) /\ marks_in ls M lo hi.
Lemma rinv_new : rinv (RamForest_new 0) (Pollard_new 0) ∅ ∅.
Proof.
  assert (HP : PMark H (Pollard_new 0) [] (λ _, false) /\ PTight (Pollard_new 0) 0 (λ _, false)).
    { destruct (Restore_ok 0 ltac:(done) (nh H (leaf_at [])) []) as (p & E & Hn & _ & HR & Hg); [done|].
      assert (Ep : Ok (Pollard_new 0) = Ok p) by (rewrite <- E; vm_compute; reflexivity). injection Ep as <-. split; [split; [done|]; by exists (Lrest (trees 0))|].
      apply (PTight_roots _ 0 (Lrest (trees 0))); [done..|]. intros r x [l (k & Hk%elem_of_list_lookup_2 & _)%Lrest_some]. done. }
    exists [], [], (λ _, false). split; [constructor|]. split; [|split; [done|split; [done|]]].
    + split; [done|]. intros i Hi. change (size (@nil hash)) with 0 in Hi. lia.
    + split; [by intros h ?%elem_of_empty|]. split; [by intros i _ ?%elem_of_empty|done].
Qed.
Lemma rinv_restore f us p : reachable H f us -> Pollard_restore (F_Roots f) (f_n f) = Ok p -> rinv f p ∅ ∅.
Proof.
  assert (H62 : 2 ^ 31 <= 2 ^ 62) by done.
  intros Hr E.
  destruct (C01_lem H f us Hr) as (ls & Hh & _). destruct (reachable_holds H f us ls Hr Hh) as (Hi & Hn & _).
    exists us, ls, (λ _, false). split; [done|]. split; [done|]. split; [done|]. split.
    + destruct (Restore_ok (size ls) ltac:(lia) (nh H (leaf_at ls)) (spec_roots H ls) eq_refl) as (q & Eq & Hpn & _ & HR & Hg).
      destruct Hh as [Hfn _]. rewrite Hfn, (inv_roots _ _ _ Hi), Eq in E. injection E as <-. split; [split; [done|]; by exists (Lrest (trees (size ls)))|].
      apply (PTight_roots _ (size ls) (Lrest (trees (size ls)))); [lia|done..|]. intros r x [l (k & Hk%elem_of_list_lookup_2 & _)%Lrest_some]. done.
    + split; [by intros h ?%elem_of_empty|]. split; [by intros i _ ?%elem_of_empty|done].
Qed.
Lemma rinv_accept f p lo hi bp ths p' : rinv f p lo hi -> verifies H f p bp ths true p' -> rinv f p' (lo ∪ list_to_set ths) (hi ∪ list_to_set ths).
Proof.
  assert (H62 : 2 ^ 31 <= 2 ^ 62) by done.
  intros IH (Hwf & E & Hnc).
  destruct IH as (us & ls & M & Hr & Hh & Hn & [HP HT] & HM).
    pose proof (Verify_mark H p ls M bp ths HP ltac:(lia) Hwf) as HV. rewrite E in HV. cbn [wp] in HV. destruct HV as (_ & _ & _ & Ht & _).
    destruct (Ht eq_refl) as [(Hv & _) [Hc|[(M' & (Hpn & L & HR & Hg & Hrd) & Hgr & HT') Hths]]]; [by apply Hnc in Hc|].
    exists us, ls, M'. split; [done|]. split; [done|]. split; [done|]. split; [split; [split; [done|]; by exists L|by apply HT']|].
    destruct (marks_grown ls _ M M' lo hi (hi ∪ list_to_set ths) Hgr HM) as (H1 & H2 & H3).
    { intros h Hx. apply elem_of_union. by left. }
    { intros t Hx _. apply elem_of_union. right. rewrite elem_of_list_to_set, Hths. by apply elem_of_list_fmap_1. }
    destruct (reachable_holds H f us ls Hr Hh) as (Hi & _). pose proof (inv_NoDup H f ls Hi) as Hnd.
    assert (Hlt : forall t, t ∈ m_sorted_targets bp -> t < size ls) by (apply Forall_forall, Hv).
    split; [|split; [|done]].
    + intros h [Hx|Hx]%elem_of_union; [by apply H1|]. rewrite elem_of_list_to_set, Hths in Hx. apply elem_of_list_fmap in Hx as (t & -> & Hx). by apply leaf_at_elem, Hlt.
    + intros i Hi' [Hx|Hx]%elem_of_union; [by apply H2|]. rewrite elem_of_list_to_set, Hths in Hx. apply elem_of_list_fmap in Hx as (t & Et & Hx).
      apply (leaf_at_inj ls) in Et as ->; [|done|done|by apply Hlt]. by apply Hrd.
Qed.
Lemma rinv_reject f p lo hi hi' bp ths p' : rinv f p lo hi -> verifies H f p bp ths false p' ->
  (forall h, h ∈ hi' <-> h ∈ hi \/ exists t, t ∈ m_sorted_targets bp /\ t < f_n f /\ F_GetLeaf f t = Ok h) -> rinv f p' lo hi'.
Proof.
  assert (H62 : 2 ^ 31 <= 2 ^ 62) by done.
  intros IH (Hwf & E & Hnc) Hhi.
  destruct IH as (us & ls & M & Hr & Hh & Hn & [HP HT] & HM).
    pose proof (Verify_mark H p ls M bp ths HP ltac:(lia) Hwf) as HV. rewrite E in HV. cbn [wp] in HV. destruct HV as (_ & _ & Hf & _).
    destruct (Hf eq_refl) as (_ & (M' & HP' & Hgr & HT') & _). exists us, ls, M'. split; [done|]. split; [done|]. split; [done|]. split; [split; [done|by apply HT']|].
    apply (marks_grown ls _ M M' lo hi hi' Hgr HM).
    + intros h Hx. apply Hhi. by left.
    + intros t Ht Hlt. apply Hhi. right. exists t. destruct Hh as [-> Hg]. split; [done|]. split; [done|]. by apply Hg.
Qed.
Lemma rinv_prune f p lo hi p' : rinv f p lo hi -> P_Prune p = Ok p' -> rinv f p' ∅ ∅.
Proof.
  assert (H62 : 2 ^ 31 <= 2 ^ 62) by done.
  intros IH E.
  destruct IH as (us & ls & M & Hr & Hh & Hn & [(Hpn & L & HR & Hg) _] & HM). destruct (Prune_ok p _ L M _ HR Hg) as (q & Eq & En & _ & HR' & Hg' & _).
    rewrite Eq in E. injection E as <-. exists us, ls, (λ _, false). split; [done|]. split; [done|]. split; [done|]. split.
    + split; [split; [congruence|]; by exists (Lroot (trees (size ls)) L)|]. apply (PTight_roots _ (size ls) (Lroot (trees (size ls)) L)); [lia|congruence|done|].
      intros r x [l [Hx _]%Lroot_some]. done.
    + split; [by intros h ?%elem_of_empty|]. split; [by intros i _ ?%elem_of_empty|done].
Qed.
Lemma rinv_remove f us ls p1 M1 ts ths lo hi (adds : list leaf) f' p' : reachable H f us -> holds_leaves f ls -> PStockM H p1 ls ts M1 -> PTight p1 (size ls) M1 ->
  marks_in ls M1 lo (hi ∪ list_to_set ths) -> valid_targets (size ls) ts -> ths = leaf_at ls <$> ts ->
  size ls + size adds < 2 ^ 31 + size ts -> F_Modify H f adds ts = Ok (true, f') -> P_Modify H p1 adds ts = Ok (true, p') ->
  rinv f' p' ((lo ∖ list_to_set ths) ∪ list_to_set (filter (λ a : leaf, a.2 = true) adds).*1) ((hi ∖ list_to_set ths) ∪ list_to_set (filter (λ a : leaf, a.2 = true) adds).*1).
Proof.
  assert (H62 : 2 ^ 31 <= 2 ^ 62) by done.
  intros Hr Hh Hrd HT (H1 & H2 & H3) Hv Hths Hb EF EP. pose proof Hh as [Hfn _].
    assert (Hr' : reachable H f' []) by (eapply reach_modify; [exact Hr| |exact EF]; by rewrite Hfn).
    pose proof (C03_lem H f us ls adds _ f' Hr Hh Hb (or_introl EF)) as Hh'.
    destruct (reachable_holds H f us ls Hr Hh) as (Hi & Hn & _). pose proof (inv_NoDup H f ls Hi) as Hnd.
    destruct (reachable_holds H f' [] _ Hr' Hh') as (Hi' & Hn' & _). pose proof (inv_NoDup H f' _ Hi') as Hnd'.
    pose proof (valid_size H _ _ Hv) as Hsz. assert (H62' : 2 ^ 31 + 2 ^ 31 <= 2 ^ 62) by done.
    assert (Hlt : forall t, t ∈ ts -> t < size ls) by (apply Forall_forall, Hv).
    destruct (P_Modify_mark H p1 ls _ M1 adds Hrd ltac:(lia) Hv) as (q & M2 & M' & Eq & HPq & Hk & HM1 & HM2 & _ & _ & HT2 & _). rewrite Eq in EP. injection EP as <-.
    exists [], (spec_remove ls ts ++ adds.*1), M'. split; [done|]. split; [done|]. split; [done|]. split; [split; [done|by apply HT2]|].
    remember (spec_remove ls ts) as ls1 eqn:E1.
    assert (Hsurv : forall h, h ∈ ls1 <-> h ∈ ls /\ h ∉ ths).
    { intros h. rewrite E1, spec_remove_perm, survivors_iff, Hths. split.
      - intros (i & Hi0 & Hni & <-). split; [by apply leaf_at_elem|]. intros (t & Et & Hx)%elem_of_list_fmap. apply (leaf_at_inj ls) in Et as ->; [done|done|done|by apply Hlt].
      - intros [(i & Hi0 & <-)%elem_leaf_at Hnt]. exists i. split; [done|]. split; [|done]. intros Hx. apply Hnt. by apply elem_of_list_fmap_1. }
    apply NoDup_app in Hnd' as (_ & Hfresh & Hnd2). unfold leaf in *.
    assert (Hcase : forall i, i < size (ls1 ++ adds.*1) -> (i < size ls1 /\ leaf_at (ls1 ++ adds.*1) i = leaf_at ls1 i) \/
      exists k h b, i = size ls1 + N.of_nat k /\ adds !! k = Some (h, b) /\ leaf_at (ls1 ++ adds.*1) i = h).
    { intros i Hi0. destruct (decide (i < size ls1)) as [Hlt1|Hge]; [left; split; [done|]; by apply leaf_at_app1|right].
      assert (Hk0 : (N.to_nat (i - size ls1) < length adds)%nat).
      { unfold size in *. rewrite app_length, fmap_length in Hi0. unfold leaf in *. lia. }
      apply lookup_lt_is_Some in Hk0 as [[h b] Ek]. exists (N.to_nat (i - size ls1)), h, b.
      split; [lia|]. split; [done|]. apply leaf_at_lookup. unfold size in Hge. rewrite lookup_app_r by lia. rewrite list_lookup_fmap.
      replace (N.to_nat i - length ls1)%nat with (N.to_nat (i - size ls1)) by (unfold size; lia). by rewrite Ek. }
    assert (Hadd : forall h, h ∈ (filter (λ a : leaf, a.2 = true) adds).*1 -> h ∈ adds.*1).
    { intros h ([h' b] & -> & [_ Hx]%elem_of_list_filter)%elem_of_list_fmap. apply elem_of_list_fmap. by exists (h', b). }
    split; [|split].
    + intros h [[Hx Hy]%elem_of_difference|Hx]%elem_of_union; apply elem_of_app.
      * left. apply Hsurv. rewrite elem_of_list_to_set in Hy. split; [by apply H1|done].
      * right. rewrite elem_of_list_to_set in Hx. by apply Hadd.
    + intros i Hi0 Hx. destruct (Hcase i Hi0) as [[Hlt1 El]|(k & h & b & -> & Ek & El)]; rewrite El in Hx.
      * rewrite HM1 by done. destruct (Hk i Hlt1) as (x & Hx0 & -> & Ex). rewrite Ex in Hx. apply elem_of_union in Hx as [[Hx _]%elem_of_difference|Hx]; [by apply H2|].
        exfalso. rewrite elem_of_list_to_set in Hx. rewrite <- Ex in Hx. apply (Hfresh (leaf_at ls1 i)); [by apply leaf_at_elem|by apply Hadd].
      * rewrite (HM2 k h b Ek). apply elem_of_union in Hx as [[Hx Hy]%elem_of_difference|Hx].
        -- exfalso. rewrite elem_of_list_to_set in Hy. apply (Hfresh h); [apply Hsurv; split; [by apply H1|done]|].
           apply elem_of_list_fmap. exists (h, b). split; [done|]. by eapply elem_of_list_lookup_2.
        -- rewrite elem_of_list_to_set in Hx. apply elem_of_list_fmap in Hx as ([h' b'] & -> & [Hb' Hx]%elem_of_list_filter). cbn [fst snd] in *. subst b'.

           apply elem_of_list_lookup in Hx as [k' Ek'].
           assert (k = k') as <-. { eapply (NoDup_lookup adds.*1); [done| |]; rewrite list_lookup_fmap, ?Ek, ?Ek'; done. }
           rewrite Ek in Ek'. by injection Ek'.
    + intros i Hi0 HMi. destruct (Hcase i Hi0) as [[Hlt1 El]|(k & h & b & -> & Ek & El)]; rewrite El; apply elem_of_union.
      * left. rewrite HM1 in HMi by done. destruct (Hk i Hlt1) as (x & Hx0 & EM & Ex). rewrite EM in HMi.
        pose proof (proj1 (Hsurv _) (leaf_at_elem ls1 i Hlt1)) as [_ Hnt]. specialize (H3 x Hx0 HMi). rewrite <- Ex in H3.
        apply elem_of_difference. rewrite elem_of_list_to_set. split; [|done]. apply elem_of_union in H3 as [H3|H3]; [done|]. by rewrite elem_of_list_to_set in H3.
      * right. rewrite (HM2 k h b Ek) in HMi. subst b. rewrite elem_of_list_to_set. apply elem_of_list_fmap. exists (h, true). split; [done|].
        apply elem_of_list_filter. split; [done|]. by eapply elem_of_list_lookup_2.
Qed.
Lemma rinv_modify f p lo hi bp ths p1 (adds : list leaf) f' p' : rinv f p lo hi -> verifies H f p bp ths true p1 ->
  f_n f + size adds < 2 ^ 31 + size (m_sorted_targets bp) -> F_Modify H f adds (m_sorted_targets bp) = Ok (true, f') -> P_Modify H p1 adds (m_sorted_targets bp) = Ok (true, p') ->
  rinv f' p' ((lo ∖ list_to_set ths) ∪ list_to_set (filter (λ a : leaf, a.2 = true) adds).*1) ((hi ∖ list_to_set ths) ∪ list_to_set (filter (λ a : leaf, a.2 = true) adds).*1).
Proof.
  assert (H62 : 2 ^ 31 <= 2 ^ 62) by done.
  intros IH (Hwf & E & Hnc) Hb EF EP.
  destruct IH as (us & ls & M & Hr & Hh & Hn & [HP HT] & HM). pose proof Hh as [Hfn _]. rewrite Hfn in Hb.
  pose proof (Verify_mark H p ls M bp ths HP ltac:(lia) Hwf) as HV. rewrite E in HV. cbn [wp] in HV. destruct HV as (_ & _ & _ & Ht & _).
  destruct (Ht eq_refl) as [(Hv & _) [Hc|[(M1 & Hrd & Hgr & HT') Hths]]]; [by apply Hnc in Hc|].
  apply (rinv_remove f us ls p1 M1 (m_sorted_targets bp)); [done|done|by apply PReadyM_stock|by apply HT'| |done..].
  apply (marks_grown ls _ M M1 lo hi _ Hgr HM).
  { intros h Hx. apply elem_of_union. by left. }
  { intros t Hx _. apply elem_of_union. right. rewrite elem_of_list_to_set, Hths. by apply elem_of_list_fmap_1. }
Qed.
Lemma rinv_stored f p lo hi (adds : list leaf) ts ths f' p' : rinv f p lo hi -> has_nodes f p ts -> Forall2 (λ t h, F_GetLeaf f t = Ok h) ts ths ->
  f_n f + size adds < 2 ^ 31 + size ts -> F_Modify H f adds ts = Ok (true, f') -> P_Modify H p adds ts = Ok (true, p') ->
  rinv f' p' ((lo ∖ list_to_set ths) ∪ list_to_set (filter (λ a : leaf, a.2 = true) adds).*1) ((hi ∖ list_to_set ths) ∪ list_to_set (filter (λ a : leaf, a.2 = true) adds).*1).
Proof.
  assert (H62 : 2 ^ 31 <= 2 ^ 62) by done.
  intros (us & ls & M & Hr & Hh & Hn & [HP HT] & (H1 & H2 & H3)) Hst Hths Hb EF EP. pose proof Hh as [Hfn _].
  destruct (stored_targets H f us ls adds ts f' Hr Hh Hb EF) as [Hv _]. apply (stored_hashes f ls ts ths Hh Hv) in Hths. rewrite Hfn in Hb.
  apply (rinv_remove f us ls p M ts); [done|done|apply (stored_stock H f); [done|lia|done|done]|done| |done..].
  split; [done|]. split; [done|]. intros i Hi HM. apply elem_of_union. left. by apply H3.
Qed.
Lemma recalls_tight f p lo hi : recalls H f p lo hi -> exists us ls M, reachable H f us /\ holds_leaves f ls /\ size ls < 2 ^ 31 /\ (PMark H p ls M /\ PTight p (size ls) M) /\ marks_in ls M lo hi.
Proof.
  induction 1; [apply rinv_new|by eapply rinv_restore|by eapply rinv_accept|by eapply rinv_reject|by eapply rinv_prune|by eapply rinv_modify|by eapply rinv_stored].
Qed.
Lemma recalls_inv f p lo hi : recalls H f p lo hi -> exists us ls M, reachable H f us /\ holds_leaves f ls /\ size ls < 2 ^ 31 /\ PMark H p ls M /\ marks_in ls M lo hi.
Proof. intros Hr. destruct (recalls_tight f p lo hi Hr) as (us & ls & M & ? & ? & ? & [? _] & ?). by exists us, ls, M. Qed.

(** ** Counting *)
Lemma size_filter_leaves ls (P : N -> Prop) `{forall x, Decision (P x)} : NoDup ls -> size (filter P (nseq 0 (size ls))) = N.of_nat (base.size (list_to_set (leaf_at ls <$> filter P (nseq 0 (size ls))) : hset)).
Proof.
  intros Hnd. rewrite size_list_to_set; [unfold size; by rewrite fmap_length|].
  apply NoDup_fmap_2_strong; [|apply NoDup_filter, nseq_NoDup]. intros x y [_ Hx%nseq_elem]%elem_of_list_filter [_ Hy%nseq_elem]%elem_of_list_filter. apply leaf_at_inj; [done|lia|lia].
Qed.
Lemma C42_lem f p lo hi : recalls H f p lo hi -> N.of_nat (base.size lo) <= P_NumCachedLeaves p <= N.of_nat (base.size hi).
Proof.
  intros Hrc. destruct (recalls_inv f p lo hi Hrc) as (us & ls & M & Hr & Hh & Hn & (_ & L & HR & _) & (H1 & H2 & H3)). assert (H62 : 2 ^ 31 <= 2 ^ 62) by done.
  destruct (reachable_holds H f us ls Hr Hh) as (Hi & _). pose proof (inv_NoDup H f ls Hi) as Hnd.
  rewrite (NumCached_leaves (size ls) p L M ltac:(lia) HR), size_filter_leaves by done. split.
  - assert (Hsub : lo ⊆ list_to_set (leaf_at ls <$> filter (λ i, M i = true) (nseq 0 (size ls)))); [|apply subseteq_size in Hsub; lia].
    intros h Hx. apply elem_of_list_to_set. destruct (elem_leaf_at ls h (H1 h Hx)) as (i & Hlt & <-). apply elem_of_list_fmap_1, elem_of_list_filter.
    split; [by apply H2|]. apply nseq_elem. lia.
  - assert (Hsub : list_to_set (leaf_at ls <$> filter (λ i, M i = true) (nseq 0 (size ls))) ⊆ hi); [|apply subseteq_size in Hsub; lia].
    intros h Hx. apply elem_of_list_to_set, elem_of_list_fmap in Hx as (i & -> & [HM Hlt%nseq_elem]%elem_of_list_filter). apply H3; [lia|done].
Qed.

(** ** A remembered leaf keeps its proof *)
Lemma holder_chain n p L M : rep p (trees n) L M -> forall k r i, node n (N.of_nat (k + r)) (i / 2 ^ N.of_nat k) -> is_Some (L r (hp (trees n) r i)) ->
  is_Some (L (k + r)%nat (hp (trees n) (k + r) (i / 2 ^ N.of_nat k))).
Proof.
  intros HR. induction k as [|k IH]; intros r i Hi Hs.
  - change (2 ^ N.of_nat 0) with 1. by rewrite N.div_1_r.
  - rewrite pow_nat_S, <- N.div_div in * by (pose proof (pow_pos (N.of_nat k)); lia). replace (S k + r)%nat with (k + S r)%nat in * by lia. apply IH; [done|].
    assert (Hin : inT (trees n) (S r) (i / 2)).
    { apply trees_under. unfold node in *. rewrite Nat2N.inj_add, N.pow_add_r in Hi. revert Hi. pose proof (pow_pos (N.of_nat k)). pose proof (pow_pos (N.of_nat (S r))).
      generalize dependent (2 ^ N.of_nat k). generalize dependent (2 ^ N.of_nat (S r)). intros Q HQ P HP Hi. pose proof (N.div_mod (i / 2) P ltac:(lia)).
      pose proof (N.mod_lt (i / 2) P ltac:(lia)). nia. }
    rewrite <- (hp_half (trees n) r i). destruct Hs as [l El]. eapply (rep_holder _ _ _ _ HR); [|exact El]. rewrite hp_half. done.
Qed.

Lemma needed_one n ts r i : needed n ts r i -> exists t, t ∈ ts /\ needed n [t] r i.
Proof.
  intros ((Hs & t & Ht & E) & Hnr & Hnc). exists t. split; [done|]. split; [split; [done|exists t; split; [left|done]]|]. split; [done|].
  intros (Hi & t' & Ht'%elem_of_list_singleton & E'). apply Hnc. split; [done|]. exists t. by subst t'.
Qed.
Lemma mark_path n p L M t r i : n <= 2 ^ 62 -> rep p (trees n) L M -> t < n -> M t = true -> needed n [t] (N.of_nat r) i -> is_Some (L r i).
Proof.
  intros Hn HR Ht HM ((Hs & t' & Et%elem_of_list_singleton & E) & Hnr & _). subst t'.
  assert (Hin : inT (trees n) 0 t) by (apply trees_under; unfold node; change (2 ^ N.of_nat 0) with 1; lia).
  pose proof (holder_chain n p L M HR r 0 t) as Hc. rewrite Nat.add_0_r, E in Hc. specialize (Hc Hs (mark_stored p (trees n) L M HR t Hin HM)).
  unfold hp in Hc. rewrite decide_False in Hc by (by rewrite trees_elem). by rewrite sib_sib in Hc.
Qed.
Lemma C43_lem f p lo hi t h : recalls H f p lo hi -> t < f_n f -> F_GetLeaf f t = Ok h -> h ∈ lo ->
  forall R r i, is_height (f_n f) R -> needed (f_n f) [t] r i -> exists v, P_Read p (enc R r i) = Ok (Some v) /\ F_Read f (enc R r i) = Ok v.
Proof.
  intros Hrc Ht Eh Hlo R r i HhR Hnd. destruct (recalls_inv f p lo hi Hrc) as (us & ls & M & Hr & Hh & Hn & (Hpn & L & HR & Hg) & (H1 & H2 & H3)).
  assert (H62 : 2 ^ 31 <= 2 ^ 62) by done. destruct (reachable_holds H f us ls Hr Hh) as (Hi & _). destruct Hh as [Hfn Hgl]. rewrite Hfn in *.
  rewrite (Hgl t Ht) in Eh. injection Eh as <-. apply NumRows_height in HhR as <-. rewrite <- (N2Nat.id r) in *.
  destruct (mark_path (size ls) p L M t (N.to_nat r) i ltac:(lia) HR Ht (H2 t Ht Hlo) Hnd) as [l El]. pose proof (needed_node _ _ _ _ Hnd) as Hnode.
  exists (nh H (leaf_at ls) (N.to_nat r) i). rewrite (P_Read_ok (size ls) ltac:(lia) p L M _ i Hpn HR Hnode), El. cbn [fmap option_fmap option_map]. split.
  - do 2 f_equal. apply Hg; [by apply trees_under|done].
  - rewrite <- (Nat2N.id (N.to_nat r)) at 2. by apply (inv_read H f ls (N.of_nat (N.to_nat r)) i Hi ltac:(lia)).
Qed.
Lemma C30_recall_lem f p lo hi hs : recalls H f p lo hi -> (forall h, h ∈ hs -> h ∈ lo /\ p_posmap p !! h = f_posmap f !! h) -> P_Prove p hs = F_Prove f hs.
Proof.
  intros Hrc Hhs. pose proof (C25_lem H f p (recalls_synced f p lo hi Hrc)) as [_ Epn]. destruct (recalls_inv f p lo hi Hrc) as (us & ls & M & Hr & Hh & Hn & _).
  assert (H62 : 2 ^ 31 <= 2 ^ 62) by done. assert (HhR : is_height (f_n f) (NumRows (f_n f))) by (by apply NumRows_height). destruct Hh as [Hfn _].
  unfold P_Prove, F_Prove. rewrite (lookup_all_eq (p_posmap p) (f_posmap f)) by (intros h Hx; by apply Hhs).
  destruct (lookup_all (f_posmap f) hs) as [us'|] eqn:El; [|done]. apply lookup_all_some in El.
  assert (Hin : forall t, t ∈ sortN us' -> exists h, h ∈ lo /\ t < f_n f /\ F_GetLeaf f t = Ok h).
  { intros t Ht. rewrite sortN_perm in Ht. apply elem_of_list_lookup in Ht as [k Hk]. eapply Forall2_lookup_r in El as (h & Hhk & E); [|exact Hk].
    apply elem_of_list_lookup_2, Hhs in Hhk as [Hx _]. apply (C07_lem H f us _ _ Hr) in E. by exists h. }
  rewrite Epn. destruct (CheckTargetsSanity_iff (f_n f) (sortN us')) as (b & -> & Hb). cbn [bind]. destruct b; [|done]. cbn [negb].
  destruct (ProofPositions_ok (f_n f) ltac:(lia) (sortN us')) as (P & C & -> & [_ HP] & _); [by apply Hb|]. cbn [bind fst].
  assert (Hread : forall q, q ∈ P -> exists h, P_Read p q = Ok (Some h) /\ F_Read f q = Ok h).
  { intros q (r & i & Hsl & -> & Hx)%HP. destruct (needed_one _ _ _ _ Hx) as (t & Ht & Hx'). destruct (Hin t Ht) as (h & Hl & Hlt & Eh). by apply (C43_lem f p lo hi t h Hrc Hlt Eh Hl). }
  clear HP. assert (E : exists hh, p_read_hashes p P = Ok (Some hh) /\ mapM_ (F_Read f) P = Ok hh).
  { induction P as [|q P IH]; [by exists []|]. destruct IH as (hh & E1 & E2); [intros; apply Hread; by right|]. destruct (Hread q ltac:(left)) as (h & F1 & F2).
    exists (h :: hh). cbn [p_read_hashes mapM_]. rewrite F1, F2. cbn [bind]. by rewrite E1, E2. }
  destruct E as (hh & -> & ->). done.
Qed.

(** ** Counting the nodes *)
Lemma NoDup_bound (l : list N) B : NoDup l -> (forall x, x ∈ l -> x < B) -> size l <= B.
Proof.
  intros Hnd Hb. assert (Hs : l ⊆+ nseq 0 B) by (apply NoDup_submseteq; [done|]; intros x Hx; apply nseq_elem; apply Hb in Hx; lia).
  apply submseteq_length in Hs. unfold nseq in Hs. rewrite fmap_length, seq_length in Hs || idtac. unfold size. lia.
Qed.
Lemma count_nodes p ls M : PMark H p ls M -> size ls < 2 ^ 31 -> exists ps, NoDup ps /\
  (forall pos, pos ∈ ps <-> exists r i h, node (size ls) r i /\ pos = enc (NumRows (size ls)) r i /\ P_Read p pos = Ok (Some h)) /\ P_CountNodes p = size ps.
Proof.
  intros (Hpn & L & HR & Hg) Hn. assert (H62 : 2 ^ 31 <= 2 ^ 62) by done. remember (size ls) as n eqn:En. remember (NumRows n) as R eqn:ER.
  exists ((λ x : nat * N, enc R (N.of_nat x.1) x.2) <$> filter (λ x : nat * N, is_Some (L x.1 x.2)) (nodesT (trees n))).
  assert (Hin : forall r i, (r, i) ∈ nodesT (trees n) <-> node n (N.of_nat r) i) by (intros r i; by rewrite nodesT_elem, trees_under).
  assert (Hnd : NoDup ((λ x : nat * N, enc R (N.of_nat x.1) x.2) <$> filter (λ x : nat * N, is_Some (L x.1 x.2)) (nodesT (trees n)))).
  { apply NoDup_fmap_2_strong; [|apply NoDup_filter, nodesT_NoDup; [apply trees_disj|apply trees_nodup]].
    intros [r i] [r' i'] [_ Hx%Hin]%elem_of_list_filter [_ Hy%Hin]%elem_of_list_filter E. cbn [fst snd] in E. rewrite ER in E.
    apply enc_inj in E as [E ->]; [|by apply node_slot|by apply node_slot]. apply Nat2N.inj in E as ->. done. }
  split; [done|]. split.
  - intros pos. rewrite elem_of_list_fmap. split.
    + intros ([r i] & -> & [[l El] Hx%Hin]%elem_of_list_filter). cbn [fst snd] in *. exists (N.of_nat r), i, (hv (p_heap p) l). split; [done|]. split; [done|].
      rewrite ER, (P_Read_ok n ltac:(lia) p L M r i Hpn HR Hx), El. done.
    + intros (r & i & h & Hx & -> & E). exists (N.to_nat r, i). cbn [fst snd]. rewrite N2Nat.id. split; [done|]. rewrite <- (N2Nat.id r) in Hx, E. rewrite ER, (P_Read_ok n ltac:(lia) p L M (N.to_nat r) i Hpn HR Hx) in E.
      injection E as E. apply elem_of_list_filter. cbn [fst snd]. split; [|by apply Hin]. apply fmap_Some in E as (l & -> & _). done.
  - rewrite (CountNodes_ok n p L M ltac:(lia) HR). unfold w64. rewrite N.mod_small; [unfold size; by rewrite fmap_length|].
    assert (Hle : size ((λ x : nat * N, enc R (N.of_nat x.1) x.2) <$> filter (λ x : nat * N, is_Some (L x.1 x.2)) (nodesT (trees n))) <= 2 ^ 63).
    { apply NoDup_bound; [done|]. intros x ([r i] & -> & [_ Hx%Hin]%elem_of_list_filter)%elem_of_list_fmap. cbn [fst snd].
      rewrite ER. eapply N.lt_le_trans; [apply enc_lt; by apply node_slot|]. apply N.pow_le_mono_r; [done|]. pose proof (NumRows_mono n (2 ^ 62) ltac:(lia)) as Hm.
      assert (E62 : NumRows (2 ^ 62) = 62) by done. lia. }
    unfold size in *. rewrite fmap_length in Hle. eapply N.le_lt_trans; [exact Hle|]. done.
Qed.
Lemma C41_lem f p R : synced H f p -> is_height (f_n f) R -> exists ps, NoDup ps /\
  (forall pos, pos ∈ ps <-> exists r i h, node (f_n f) r i /\ pos = enc R r i /\ P_Read p pos = Ok (Some h)) /\ P_CountNodes p = size ps.
Proof.
  intros Hs HhR. destruct (synced_inv H f p Hs) as (us & ls & Hr & [Hfn _] & Hn & [M HP]%PInv_mark). apply NumRows_height in HhR as <-. rewrite Hfn. by eapply count_nodes.
Qed.
Lemma reject_counts f p bp ths p' : synced H f p -> proof_wf bp -> P_Verify H p bp ths = Ok (false, p') ->
  P_CountNodes p' = P_CountNodes p /\ P_NumCachedLeaves p <= P_NumCachedLeaves p' <= P_NumCachedLeaves p + size (m_sorted_targets bp).
Proof.
  intros Hs Hwf E. destruct (synced_inv H f p Hs) as (us & ls & Hr & Hh & Hn & [M HP]%PInv_mark). assert (H62 : 2 ^ 31 <= 2 ^ 62) by done.
  pose proof (Verify_mark H p ls M bp ths HP ltac:(lia) Hwf) as HV. rewrite E in HV. cbn [wp] in HV. destruct HV as (_ & _ & Hf & _).
  destruct (Hf eq_refl) as (_ & (M' & HP' & [Hg1 Hg2] & _) & Hrd). split.
  - destruct (count_nodes p ls M HP Hn) as (ps & Hnd & Hps & ->). destruct (count_nodes p' ls M' HP' Hn) as (ps' & Hnd' & Hps' & ->).
    unfold size. f_equal. apply Permutation_length, NoDup_Permutation; [done..|]. intros pos. rewrite Hps, Hps'.
    split; intros (r & i & h & Hx & -> & Er); exists r, i, h; (split; [done|]; split; [done|]); rewrite <- (N2Nat.id r) in *; [by rewrite <- Hrd|by rewrite Hrd].
  - destruct HP as (_ & L & HR & _), HP' as (_ & L' & HR' & _). rewrite (NumCached_leaves (size ls) p L M ltac:(lia) HR), (NumCached_leaves (size ls) p' L' M' ltac:(lia) HR'). split.
    + assert (Hsub : filter (λ i, M i = true) (nseq 0 (size ls)) ⊆+ filter (λ i, M' i = true) (nseq 0 (size ls))); [|apply submseteq_length in Hsub; unfold size in *; lia].
      apply NoDup_submseteq; [apply NoDup_filter, nseq_NoDup|]. intros i [HMi Hi]%elem_of_list_filter. apply elem_of_list_filter. split; [|done]. apply Hg1; [apply nseq_elem in Hi; lia|done].
    + assert (Hsub : filter (λ i, M' i = true) (nseq 0 (size ls)) ⊆+ filter (λ i, M i = true) (nseq 0 (size ls)) ++ m_sorted_targets bp).
      { apply NoDup_submseteq; [apply NoDup_filter, nseq_NoDup|]. intros i [HMi Hi]%elem_of_list_filter. apply elem_of_app.
        destruct (Hg2 i ltac:(apply nseq_elem in Hi; lia) HMi) as [HM|Ht]; [left|by right]. by apply elem_of_list_filter. }
      apply submseteq_length in Hsub. rewrite app_length in Hsub. unfold size in *. lia.
Qed.

(** ** The position map of the pollard *)
Lemma P_Add_posmap (adds : list leaf) : forall p ls M p', PMark H p ls M -> size ls + size adds <= 2 ^ 62 -> P_Add H p adds = Ok p' ->
  (forall h, h ∉ (filter (λ a : leaf, a.2 = true) adds).*1 -> p_posmap p' !! h = p_posmap p !! h) /\
  (NoDup adds.*1 -> forall k h, adds !! k = Some (h, true) -> p_posmap p' !! h = Some (size ls + N.of_nat k)).
Proof.
  induction adds as [|[h b] adds IH]; intros p ls M p' HP Hn E.
  - injection E as <-. split; [done|]. by intros _ k h ?.
  - unfold leaf in *. assert (Hs : size ((h, b) :: adds) = size adds + 1) by (unfold size; cbn [length]; lia).
    destruct (P_add_leaf_mark H p ls M h b HP ltac:(lia)) as (p1 & E1 & HP1 & Epm & _). unfold P_Add in E. cbn [foldM] in E. rewrite E1 in E. cbn [bind] in E.
    assert (Hsz : size (ls ++ [h]) = size ls + 1) by (unfold size; rewrite app_length; cbn [length]; lia).
    destruct (IH p1 (ls ++ [h]) _ p' HP1 ltac:(lia) E) as [I1 I2]. split.
    + intros x Hx. rewrite filter_cons in Hx. cbn [snd] in Hx. destruct (decide (b = true)) as [->|Hb].
      * rewrite fmap_cons in Hx. apply not_elem_of_cons in Hx as [Hne Hx]. rewrite I1, Epm by done. cbn [fst] in Hne. by rewrite lookup_insert_ne.
      * rewrite I1, Epm by done. by destruct b.
    + rewrite fmap_cons. intros [Hnh Hnd]%NoDup_cons [|k] x Hk.
      * injection Hk as -> ->. rewrite I1; [rewrite Epm, lookup_insert; f_equal; lia|]. intros (a & -> & [_ Ha]%elem_of_list_filter)%elem_of_list_fmap. apply Hnh. cbn [fst]. by apply elem_of_list_fmap_1.
      * cbn [lookup list_lookup] in Hk. rewrite (I2 Hnd k x Hk), Hsz. f_equal. lia.
Qed.
Lemma C44_verify_lem f p bp ths p' h : synced H f p -> verifies H f p bp ths true p' ->
  (h ∈ ths -> p_posmap p' !! h = f_posmap f !! h) /\ (h ∉ ths -> p_posmap p' !! h = p_posmap p !! h).
Proof.
  intros Hs Hv. destruct (verified H f p bp ths p' Hs Hv) as (us & ls & Hr & Hh & Hi & Hn & Hts & Hrd & Hths & Hpm). split.
  - intros [k Hk]%elem_of_list_lookup. pose proof (inv_NoDup H f ls Hi) as Hnd. pose proof Hk as Hk'. rewrite Hths, list_lookup_fmap in Hk'. apply fmap_Some in Hk' as (t & Ht & ->).
    assert (Hlt : forall t, t ∈ m_sorted_targets bp -> t < size ls) by (apply Forall_forall, Hts). rewrite Hpm.
    rewrite (pm_add_lookup _ _ _ k _ t); [|rewrite Hths|done|done].
    + symmetry. apply (C07_lem H f us _ _ Hr). destruct Hh as [-> Hg]. apply elem_of_list_lookup_2 in Ht. split; [by apply Hlt|by apply Hg, Hlt].
    + apply NoDup_fmap_2_strong; [|apply sorted_lt_NoDup, Hts]. intros x y Hx Hy. apply leaf_at_inj; [done|by apply Hlt|by apply Hlt].
  - intros Hh'. rewrite Hpm. by apply pm_add_notin.
Qed.
Lemma C44_modify_lem f p bp ths p1 (adds : list leaf) f' p' h : synced H f p -> verifies H f p bp ths true p1 ->
  f_n f + size adds < 2 ^ 31 + size (m_sorted_targets bp) ->
  F_Modify H f adds (m_sorted_targets bp) = Ok (true, f') -> P_Modify H p1 adds (m_sorted_targets bp) = Ok (true, p') ->
  ((h, true) ∈ adds -> p_posmap p' !! h = f_posmap f' !! h) /\
  (m_sorted_targets bp = [] -> h ∉ adds.*1 -> p_posmap p' !! h = p_posmap p !! h /\ f_posmap f' !! h = f_posmap f !! h).
Proof.
  intros Hs Hv Hb EF EP. assert (H62 : 2 ^ 31 + 2 ^ 31 <= 2 ^ 62) by done. destruct (verified H f p bp ths p1 Hs Hv) as (us & ls & Hr & Hh & Hi & Hn & Hts & Hrd & Hths & Hpm). pose proof Hh as [Hfn Hgl].
  assert (Hr' : reachable H f' []) by (eapply reach_modify; [exact Hr| |exact EF]; done). rewrite Hfn in Hb.
  pose proof (C03_lem H f us ls adds _ f' Hr Hh Hb (or_introl EF)) as Hh'. destruct (reachable_holds H f' [] _ Hr' Hh') as (Hi' & Hn' & _). pose proof (inv_NoDup H f' _ Hi') as Hnd'.
  pose proof (valid_size H _ _ Hts) as Hsz. apply PReady_mark in Hrd as [M HM].
  assert (Hrem : exists q M1, P_Remove H p1 (m_sorted_targets bp) = Ok (true, q) /\ PMark H q (spec_remove ls (m_sorted_targets bp)) M1 /\ size (spec_remove ls (m_sorted_targets bp)) = size ls - size (m_sorted_targets bp)).
  { destruct (decide (m_sorted_targets bp = [])) as [->|Hne].
    - exists p1, M. split; [done|]. rewrite spec_remove_nil. destruct HM as (Hpn & L & HR & Hg & _). split; [split; [done|]; by exists L|]. change (size (@nil N)) with 0. lia.
    - destruct (P_Remove_mark H p1 ls _ M (PReadyM_stock _ _ _ _ _ HM) ltac:(lia) Hts Hne) as (q & M1 & E1 & HP1 & Hs1 & _). by exists q, M1. }
  destruct Hrem as (q & M1 & ER & HPq & Hs1). unfold P_Modify in EP. rewrite ER in EP. cbn [bind fst snd negb] in EP.
  destruct (P_Add H q adds) as [q'| | | |] eqn:EA; try done. cbn [bind] in EP. injection EP as <-.
  destruct (P_Add_posmap adds q _ M1 q' HPq ltac:(lia) EA) as [A1 A2]. split.
  - intros [k Hk]%elem_of_list_lookup. apply NoDup_app in Hnd' as (_ & _ & Hnd2). rewrite (A2 Hnd2 k h Hk). symmetry. apply (C07_lem H f' [] _ _ Hr').
    destruct Hh' as [Hfn' Hgl']. pose proof (lookup_lt_Some _ _ _ Hk) as Hlt. rewrite Hfn'.
    assert (Hx : (spec_remove ls (m_sorted_targets bp) ++ adds.*1) !! N.to_nat (size (spec_remove ls (m_sorted_targets bp)) + N.of_nat k) = Some h).
    { unfold size. replace (N.to_nat _) with (length (spec_remove ls (m_sorted_targets bp)) + k)%nat by lia. rewrite lookup_app_r by lia.
      replace (_ + k - _)%nat with k by lia. rewrite list_lookup_fmap. unfold leaf in *. by rewrite Hk. }
    apply leaf_at_lookup in Hx as [Hx1 <-]. split; [done|]. by apply Hgl'.
  - intros Ets Hha. assert (Enil : zip ths (m_sorted_targets bp) = []) by (rewrite Hths, Ets; done). rewrite Enil in Hpm. rewrite Ets in *. cbn [P_Remove] in ER. injection ER as <-. split.
    + rewrite A1; [by rewrite Hpm|]. intros (a & -> & [_ Ha]%elem_of_list_filter)%elem_of_list_fmap. apply Hha. by apply elem_of_list_fmap_1.
    + rewrite spec_remove_nil in Hh'. destruct Hh' as [Hfn' Hgl']. apply option_eq. intros q. rewrite (C07_lem H f' [] h q Hr'), (C07_lem H f us h q Hr), Hfn, Hfn'. split.
      * intros [Hq E]. rewrite (Hgl' q Hq) in E. injection E as E. pose proof (proj1 (leaf_at_lookup (ls ++ adds.*1) q h) (conj Hq E)) as Ex.
        apply lookup_app_Some in Ex as [Ex|[_ Ex]].
        -- apply leaf_at_lookup in Ex as [Hq' <-]. split; [done|]. by apply Hgl.
        -- exfalso. apply Hha. by eapply elem_of_list_lookup_2.
      * intros [Hq E]. rewrite (Hgl q Hq) in E. injection E as <-. pose proof (proj1 (leaf_at_lookup ls q _) (conj Hq eq_refl)) as Ex.
        assert (Ex' : (ls ++ adds.*1) !! N.to_nat q = Some (leaf_at ls q)) by (by apply lookup_app_l_Some). apply leaf_at_lookup in Ex' as [Hq' Ex'].
        split; [done|]. rewrite <- Ex'. by apply Hgl'.
Qed.
End Recall.
