(** * MarkFacts: exactly which leaves a pollard remembers (proofs) *)
From stdpp Require Import sorting.
From Verif Require Import Base StateModel CodecModel ForestModel PollardModel PosSpec PosFacts PathFacts ProofSpec TakeFacts VerifySpec MarkSpec MerkleSpec ForestSpec ForestInv ForestFacts ProveFacts HistFacts PosmapFacts
  PollardSpec PollardRep PollardOps PollardAdd PollardRemove PollardRows PollardInit PollardCreate PollardVerify PollardVerifyMain PollardPrune PollardCount PollardHist PollardProps PollardRecall AcceptFacts.
From Coq Require Import ZifyBool ZifyNat ZifyN.
Ltac Zify.zify_post_hook ::= idtac.

Lemma leaf_node n t : node n (N.of_nat 0) t <-> t < n.
Proof. unfold node. change (2 ^ N.of_nat 0) with 1. lia. Qed.
Lemma remembers_iff n p L M t : n <= 2 ^ 62 -> p_n p = n -> rep p (trees n) L M -> t < n -> remembers p t <-> M t = true.
Proof.
  intros Hn Hpn HR Ht. apply leaf_node in Ht. destruct (ReadSiblings_ok n Hn p L M false 0 t Hpn HR Ht) as (k & q & E & _).
  change (N.of_nat 0) with 0 in E at 1. rewrite enc_0 in E. pose proof (rp_leaf _ _ _ _ HR t (proj2 (trees_under _ _ _) Ht)) as Hl. unfold remembers. rewrite E. split.
  - intros (a & s & rp & nd & E1 & E2 & E3). apply Ok_inv in E1. injection E1 as _ E1 _. rewrite E1 in Hl. unfold nc in Hl. rewrite E2 in Hl. cbn [niece] in Hl. rewrite E3 in Hl.
    by destruct (M t).
  - intros HM. rewrite HM in Hl. destruct (L 0%nat (hp (trees n) 0 t)) as [s|]; [|done]. unfold nc in Hl. destruct (p_heap p !! s) as [nd|] eqn:End; [|done].
    by exists (L 0%nat t), s, q, nd.
Qed.
Lemma keeper_iff n t q : keeper n t q <-> q = hp (trees n) 0 t.
Proof.
  unfold keeper, hp. change (N.of_nat 0) with 0. destruct (decide ((0, t) ∈ trees n)) as [Ht|Ht]; rewrite trees_elem in Ht; split; try tauto.
Qed.

Section Mark.
Context (H : hash -> hash -> hash).
Notation bel ls ts := (belowp (size ls) ts (S (N.to_nat (NumRows (size ls))))).

Section One.
Context (p : pollard) (ls : list hash) (L0 : lmap) (M0 : N -> bool).
Context (Hn : size ls <= 2 ^ 62) (Hpn : p_n p = size ls) (HR : rep p (trees (size ls)) L0 M0) (Hg : agree p (trees (size ls)) L0 (nh H (leaf_at ls))).
Lemma leaf_read t h : t < size ls -> P_Read p t = Ok (Some h) <-> is_Some (L0 0%nat t) /\ h = nh H (leaf_at ls) 0 t.
Proof using Hn Hpn HR Hg.
  intros Ht. apply leaf_node in Ht. pose proof (P_Read_ok (size ls) Hn p L0 M0 0 t Hpn HR Ht) as E. change (N.of_nat 0) with 0 in E. rewrite enc_0 in E. rewrite E. clear E.
  destruct (L0 0%nat t) as [l|] eqn:El; cbn [fmap option_fmap option_map]; split.
  - intros E%Ok_inv. injection E as <-. split; [done|]. apply Hg; [by apply trees_under|done].
  - intros [_ ->]. do 2 f_equal. apply Hg; [by apply trees_under|done].
  - intros E%Ok_inv. done.
  - by intros [[? ?] _].
Qed.
Lemma spends_iff ts prf : valid_targets (size ls) ts -> spends p ts prf <-> spent (size ls) ts L0 (nh H (leaf_at ls)) prf.
Proof using Hn Hpn HR Hg.
  intros Hts. pose proof (sto_read H p ls L0 M0 ts Hn Hpn HR Hg) as Hs. unfold spends, spent. rewrite Hpn. split.
  - intros (R & ps & st & out & HhR & Hps & H1 & Ht). apply NumRows_height in HhR as <-. pose proof (needed_rev _ Hn _ _ Hps) as Er.
    rewrite (proj1 (read_rev _ _ _ _ _ _ Er Hs) H1) in Ht. by exists out.
  - intros [out Ht]. destruct (ProofPositions_ok (size ls) Hn ts Hts) as (P & C & _ & HP & _). pose proof (needed_rev _ Hn _ _ HP) as Er.
    exists (NumRows (size ls)), P, (rev (sto L0 (nh H (leaf_at ls)) <$> bel ls ts)), out.
    split; [by apply NumRows_height|]. split; [done|]. split; [apply (read_rev _ _ _ _ _ _ Er Hs), rev_involutive|]. by rewrite rev_involutive.
Qed.
Lemma agreed_iff ts ths x : valid_targets (size ls) ts ->
  agreed p ts ths x <-> forall y t th, (y <= x)%nat -> ts !! y = Some t -> ths !! y = Some th -> is_Some (L0 0%nat t) -> nh H (leaf_at ls) 0 t = th.
Proof using Hn Hpn HR Hg.
  intros [_ Hlt]. rewrite Forall_forall in Hlt. split.
  - intros Ha y t th Hy Et Eth Hs. apply (Ha y t th); try done. apply leaf_read; [|done]. apply Hlt. by eapply elem_of_list_lookup_2.
  - intros Ha y t th h Hy Et Eth [Hs ->]%leaf_read; [|apply Hlt; by eapply elem_of_list_lookup_2]. by apply (Ha y t th).
Qed.
Lemma keeper_read t : t < size ls -> (exists q h, keeper (size ls) t q /\ P_Read p q = Ok (Some h)) <-> is_Some (L0 0%nat (hp (trees (size ls)) 0 t)).
Proof using Hn Hpn HR Hg.
  intros Ht. assert (Hq : hp (trees (size ls)) 0 t < size ls).
  { apply leaf_node, trees_under, inT_hp; [apply trees_disj|]. by apply trees_under, leaf_node. }
  split.
  - intros (q & h & ->%keeper_iff & [Hs _]%leaf_read); done.
  - intros Hs. eexists _, _. split; [by apply keeper_iff|]. by apply leaf_read.
Qed.
Lemma compared_iff bp ths : compared p bp ths <-> valid_targets (size ls) (m_sorted_targets bp) /\ length ths = length (m_sorted_targets bp) /\ spent (size ls) (m_sorted_targets bp) L0 (nh H (leaf_at ls)) (m_proof bp).
Proof using Hn Hpn HR Hg. unfold compared. rewrite Hpn. split; intros (H1 & H2 & H3); (split; [done|]; split; [done|]); by apply spends_iff. Qed.
Lemma kept_iff bp ths t : t < size ls -> marks p bp ths t <-> kept (size ls) L0 (nh H (leaf_at ls)) (m_sorted_targets bp) (m_proof bp) ths t.
Proof using Hn Hpn HR Hg.
  intros Ht. unfold marks, kept. rewrite compared_iff, Hpn, keeper_read by done. split.
  - intros ((Hv & Hl & Hsp) & Hs & x & Hx & Ha). split_and!; try done. exists x. split; [done|]. by apply agreed_iff.
  - intros (Hs & Hv & Hl & Hsp & x & Hx & Ha). split_and!; try done. exists x. split; [done|]. by apply agreed_iff.
Qed.
End One.

Lemma reject_marks p ls M bp ths p' : PMark H p ls M -> size ls < 2 ^ 31 -> proof_wf bp -> P_Verify H p bp ths = Ok (false, p') ->
  exists M', PMark H p' ls M' /\ (PTight p (size ls) M -> PTight p' (size ls) M') /\ forall i, i < size ls -> (M' i = true <-> M i = true \/ marks p bp ths i).
Proof.
  intros HP Hn31 Hwf E. assert (Hmax : int_max + 1 = 2 ^ 31) by done. assert (Hn : size ls <= 2 ^ 62) by (assert (2 ^ 31 <= 2 ^ 62) by done; lia).
  pose proof (Verify_mark H p ls M bp ths HP Hn31 Hwf) as HV. rewrite E in HV. cbn [wp] in HV. destruct HV as (_ & _ & Hf & _).
  destruct (Hf eq_refl) as (_ & (M' & HP' & _ & HT') & _). clear Hf. exists M'. split; [done|]. split; [done|].
  pose proof HP as (Hpn & L0 & HR0 & Hg0).
  pose proof (Verify_ok H (size ls) Hn p L0 M (nh H (leaf_at ls)) Hpn HR0 Hg0 (nh_step H (size ls) ls) bp ths ltac:(lia) Hwf) as HV.
  rewrite E in HV. cbn [wp] in HV. destruct HV as (Hf & _). destruct (Hf eq_refl) as (Hpn' & _ & M2 & _ & HR2 & _ & Hex).
  intros i Hi. destruct HP' as (_ & L' & HR' & _).
  rewrite <- (remembers_iff (size ls) p' L' M' i Hn Hpn' HR' Hi), (remembers_iff (size ls) p' L0 M2 i Hn Hpn' HR2 Hi), (kept_iff p ls L0 M Hn Hpn HR0 Hg0 bp ths i Hi).
  apply Hex. by apply trees_under, leaf_node.
Qed.

Lemma C29_exact_lem f p bp ths p' t : synced H f p -> proof_wf bp -> P_Verify H p bp ths = Ok (false, p') -> t < f_n f ->
  remembers p' t <-> remembers p t \/ marks p bp ths t.
Proof.
  intros Hs Hwf E Ht. destruct (synced_inv H f p Hs) as (us & ls & Hr & [Hfn _] & Hn31 & [M HP]%PInv_mark). rewrite Hfn in Ht.
  assert (Hn : size ls <= 2 ^ 62) by (assert (2 ^ 31 <= 2 ^ 62) by done; lia).
  destruct (reject_marks p ls M bp ths p' HP Hn31 Hwf E) as (M' & (Hpn' & L' & HR' & _) & _ & Hex). destruct HP as (Hpn & L & HR & _).
  rewrite (remembers_iff (size ls) p' L' M' t Hn Hpn' HR' Ht), (remembers_iff (size ls) p L M t Hn Hpn HR Ht). by apply Hex.
Qed.

(** ** Histories *)
Notation hset := (gmap.gset N).
Lemma keeps_rinv f p (s : hset) : keeps H f p s -> rinv H f p s s.
Proof.
  induction 1 as [|f us p Hr E|f p s bp ths p' Hs IH Hv|f p s s' bp ths p' Hs IH Hv Hs'|f p s p' Hs IH E|f p s bp ths p1 adds f' p' Hs IH Hv Hb EF EP|f p s adds ts ths f' p' Hs IH Hst Hths Hb EF EP];
    [apply rinv_new|by eapply rinv_restore|by eapply rinv_accept| |by eapply rinv_prune|by eapply rinv_modify|by eapply rinv_stored].
  destruct IH as (us & ls & M & Hr & Hh & Hn & [HP HT] & (H1 & H2 & H3)). destruct Hv as (Hwf & E & _). pose proof Hh as [Hfn Hg].
  destruct (reject_marks p ls M bp ths p' HP Hn Hwf E) as (M' & HP' & HT' & Hex). exists us, ls, M'. split; [done|]. split; [done|]. split; [done|]. split; [split; [done|by apply HT']|].
  assert (Hlt : forall t, marks p bp ths t -> t < size ls).
  { intros t ((Hv & _) & _ & x & Hx & _). destruct HP as (Hpn & _). rewrite Hpn in Hv. destruct Hv as [_ Hv]. rewrite Forall_forall in Hv. apply Hv. by eapply elem_of_list_lookup_2. }
  destruct (reachable_holds H f us ls Hr Hh) as (Hi & _). pose proof (inv_NoDup H f ls Hi) as Hnd. split; [|split].
  - intros h [Hx|(t & Ht & El)]%Hs'; [by apply H1|]. pose proof (Hlt t Ht) as Htl. rewrite (Hg t Htl) in El. apply Ok_inv in El as <-. by apply leaf_at_elem.
  - intros i Hil [Hx|(t & Ht & El)]%Hs'; apply Hex; try done; [left; by apply H2|right]. pose proof (Hlt t Ht) as Htl. rewrite (Hg t Htl) in El. apply Ok_inv in El.
    by apply (leaf_at_inj ls) in El as <-.
  - intros i Hil HM. apply Hs'. apply Hex in HM as [HM|HM]; [left; by apply H3|right|done]. exists i. split; [done|by apply Hg].
Qed.
Lemma keeps_synced f p (s : hset) : keeps H f p s -> synced H f p.
Proof. induction 1; [constructor|by eapply sy_restore|by eapply sy_verify|by eapply sy_verify|by eapply sy_prune|by eapply sy_modify|by eapply sy_stored]. Qed.
Lemma C80_lem f p (s : hset) : keeps H f p s -> synced H f p /\ P_NumCachedLeaves p = N.of_nat (base.size s) /\
  (forall h, h ∈ s -> exists t, t < f_n f /\ F_GetLeaf f t = Ok h) /\ forall t h, t < f_n f -> F_GetLeaf f t = Ok h -> (remembers p t <-> h ∈ s).
Proof.
  intros Hk. split; [by eapply keeps_synced|]. destruct (keeps_rinv f p s Hk) as (us & ls & M & Hr & Hh & Hn31 & [(Hpn & L & HR & _) _] & (H1 & H2 & H3)).
  assert (Hn : size ls <= 2 ^ 62) by (assert (2 ^ 31 <= 2 ^ 62) by done; lia). pose proof Hh as [Hfn Hg].
  destruct (reachable_holds H f us ls Hr Hh) as (Hi & _). pose proof (inv_NoDup H f ls Hi) as Hnd. split; [|split].
  - rewrite (NumCached_leaves (size ls) p L M Hn HR), (size_filter_leaves H ls _ Hnd). do 2 f_equal. apply set_eq. intros h. rewrite elem_of_list_to_set, elem_of_list_fmap. split.
    + intros (i & -> & [HM Hx%nseq_elem]%elem_of_list_filter). apply H3; [lia|done].
    + intros Hx. destruct (elem_leaf_at _ _ (H1 h Hx)) as (i & Hi0 & Ei). exists i. split; [done|]. apply elem_of_list_filter. split; [apply H2; [done|by rewrite Ei]|]. apply nseq_elem. lia.
  - intros h Hx. destruct (elem_leaf_at _ _ (H1 h Hx)) as (i & Hi0 & Ei). exists i. rewrite Hfn. split; [done|]. rewrite <- Ei. by apply Hg.
  - intros t h Ht Eh. rewrite Hfn in Ht. rewrite (Hg t Ht) in Eh. apply Ok_inv in Eh as <-. rewrite (remembers_iff (size ls) p L M t Hn Hpn HR Ht). split; [by apply H3|by apply H2].
Qed.
Lemma C80_all_lem f p : synced H f p -> exists s, keeps H f p s.
Proof.
  induction 1 as [|f us p Hr E|f p bp ths b p' Hs [s IH] Hv|f p p' Hs [s IH] E|f p bp ths p1 adds f' p' Hs [s IH] Hv Hb EF EP|f p adds ts f' p' Hs [s IH] Hst Hb EF EP].
  - exists ∅. constructor.
  - exists ∅. by eapply kp_restore.
  - destruct b; [eexists; by eapply kp_accept|].
    destruct (synced_inv H f p Hs) as (us & ls & Hr & Hh & Hn31 & [M HP]%PInv_mark). pose proof Hh as [Hfn Hg]. pose proof Hv as (Hwf & E & _).
    destruct (reject_marks p ls M bp ths p' HP Hn31 Hwf E) as (M' & _ & _ & Hex). pose proof HP as (Hpn & _).
    destruct (keeps_rinv f p s IH) as (us2 & ls2 & M2 & Hr2 & Hh2 & _ & [HP2 _] & (H1 & H2 & H3)). assert (Els : ls2 = ls) by (by eapply holds_unique). subst ls2.
    assert (HMs : forall i, i < size ls -> (M i = true <-> leaf_at ls i ∈ s)).
    { assert (Hn : size ls <= 2 ^ 62) by (assert (2 ^ 31 <= 2 ^ 62) by done; lia). intros i Hi. destruct HP as (_ & L & HR & _), HP2 as (_ & L2 & HR2 & _).
      rewrite <- (remembers_iff (size ls) p L M i Hn Hpn HR Hi), (remembers_iff (size ls) p L2 M2 i Hn Hpn HR2 Hi). split; [by apply H3|by apply H2]. }
    exists (s ∪ list_to_set (leaf_at ls <$> filter (λ i, M' i = true) (nseq 0 (size ls)))). eapply kp_reject; [done|done|]. intros h.
    rewrite elem_of_union, elem_of_list_to_set, elem_of_list_fmap. split.
    + intros [?|(i & -> & [HM Hi%nseq_elem]%elem_of_list_filter)]; [by left|]. assert (Hi' : i < size ls) by lia. apply Hex in HM as [HM|HM]; [|right|done].
      * left. by apply HMs.
      * exists i. split; [done|by apply Hg].
    + intros [?|(t & Ht & El)]; [by left|right]. assert (Htl : t < size ls).
      { destruct Ht as ((Hv' & _) & _ & x & Hx & _). rewrite Hpn in Hv'. destruct Hv' as [_ Hv']. rewrite Forall_forall in Hv'. apply Hv'. by eapply elem_of_list_lookup_2. }
      rewrite (Hg t Htl) in El. apply Ok_inv in El as <-. exists t. split; [done|]. apply elem_of_list_filter. split; [apply Hex; [done|by right]|]. apply nseq_elem. lia.
  - exists ∅. by eapply kp_prune.
  - eexists. by eapply kp_modify.
  - destruct (synced_inv H f p Hs) as (us & ls & Hr & Hh & _). destruct (stored_targets H f us ls adds ts f' Hr Hh Hb EF) as [Hv _].
    eexists. eapply kp_stored; [done|done| |done|done|done]. by apply (stored_hashes f ls).
Qed.
End Mark.
