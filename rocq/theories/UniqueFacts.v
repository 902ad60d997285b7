(** * UniqueFacts: which proofs a pollard accepts (proofs) *)
From stdpp Require Import sorting.
From Verif Require Import Base StateModel CodecModel ForestModel PollardModel PosSpec PosFacts PathFacts ProofSpec TakeFacts MerkleSpec ForestSpec ForestInv ForestFacts ProveFacts HistFacts PosmapFacts
  PollardSpec PollardRep PollardOps PollardAdd PollardRemove PollardRows PollardInit PollardCreate PollardVerify PollardVerifyMain PollardPrune PollardHist PollardProps PollardRecall ForestExamples PollardExamples BindFacts.
From Coq Require Import ZifyBool ZifyNat ZifyN.
Ltac Zify.zify_post_hook ::= idtac.

Section Unique.
Context (H : hash -> hash -> hash).

Lemma sublist_fmap_g {A B} (g : A -> B) l k : l `sublist_of` k -> g <$> l `sublist_of` g <$> k.
Proof. induction 1; cbn [fmap list_fmap]; by constructor. Qed.
Lemma rev_sublist {A} (l k : list A) : rev l `sublist_of` rev k -> l `sublist_of` k.
Proof.
  intros Hs. rewrite <- (rev_involutive l), <- (rev_involutive k). revert Hs. generalize (rev l), (rev k). intros a b Hs.
  induction Hs as [|x a b _ IH|x a b _ IH]; cbn [rev]; [constructor|by apply sublist_app|by apply sublist_inserts_r].
Qed.

Lemma sublist_full {A} (l k : list A) : l `sublist_of` k -> (length k <= length l)%nat -> l = k.
Proof.
  induction 1 as [|x l k Hs IH|x l k Hs IH]; cbn [length]; intros Hlen; [done|f_equal; apply IH; lia|]. apply sublist_length in Hs. lia.
Qed.

(** An accepted proof gives the needed nodes their true hashes. *)
Lemma accepted_takes p ls bp ths p' L0 M0 : p_n p = size ls -> rep p (trees (size ls)) L0 M0 -> agree p (trees (size ls)) L0 (nh H (leaf_at ls)) ->
  size ls < 2 ^ 31 -> proof_wf bp -> P_Verify H p bp ths = Ok (true, p') ->
  shows_collision H p' ls \/ (valid_targets (size ls) (m_sorted_targets bp) /\ ths = leaf_at ls <$> m_sorted_targets bp /\
    hon (size ls) (m_sorted_targets bp) L0 (nh H (leaf_at ls)) (m_proof bp)).
Proof.
  intros Hpn HR0 Hg0 Hn31 Hwf E. assert (Hmax : int_max + 1 = 2 ^ 31) by done.
  assert (Hn : size ls <= 2 ^ 62) by (assert (2 ^ 31 <= 2 ^ 62) by done; lia).
  pose proof (Verify_ok H (size ls) Hn p L0 M0 (nh H (leaf_at ls)) Hpn HR0 Hg0 (nh_step H (size ls) ls) bp ths ltac:(lia) Hwf) as HV.
  rewrite E in HV. cbn [wp] in HV. destruct HV as (_ & Ht & _).
  destruct (Ht eq_refl) as (E1 & E2 & E3 & Hv & L & M & HR & Hsub & HM & Hag0 & Hready & _ & Htk & Hd).
  destruct Hd as [(r & d & Hc & Hne & Heq)|[Hag Hths]].
  - left. assert (Hnode : node (size ls) (N.of_nat (S r)) d) by (apply cmpb_iff in Hc; apply Hc).
    assert (Hk : forall x, x / 2 = d -> is_Some (L r x)).
    { intros x Hx. apply Hready. apply srow_elem. unfold srow. apply elem_of_app. left. apply kids_elem. rewrite Hx. by apply crow_elem, cmpb_iff. }
    destruct (half_2 d) as [D1 D2]. destruct (Hk _ D1) as [la Ea]. destruct (Hk _ D2) as [lb Eb].
    assert (Hin : inT (trees (size ls)) (S r) d) by (by apply trees_under).
    exists (NumRows (size ls)), r, d, (hv (p_heap p') la), (hv (p_heap p') lb). split; [by apply NumRows_height|]. split; [done|].
    assert (Hn1 : node (size ls) (N.of_nat r) (2 * d)) by (apply trees_under, inT_kid; by rewrite D1).
    assert (Hn2 : node (size ls) (N.of_nat r) (2 * d + 1)) by (apply trees_under, inT_kid; by rewrite D2).
    rewrite (P_Read_ok (size ls) Hn p' L M r _ E1 HR Hn1), (P_Read_ok (size ls) Hn p' L M r _ E1 HR Hn2), Ea, Eb. split; [done|]. split; [done|].
    rewrite (hvL_some _ _ _ _ _ Ea), (hvL_some _ _ _ _ _ Eb) in Hne, Heq. done.
  - right. split; [done|]. split; [done|]. unfold hon.
    replace (gx (nh H (leaf_at ls)) <$> belowp (size ls) (m_sorted_targets bp) (S (N.to_nat (NumRows (size ls))))) with
      ((λ x : nat * N, hvL (p_heap p') L x.1 x.2) <$> belowp (size ls) (m_sorted_targets bp) (S (N.to_nat (NumRows (size ls))))); [exact Htk|].
    apply list_fmap_ext. intros m [r i] Hb%elem_of_list_lookup_2. unfold gx. cbn [fst snd].
    apply belowp_elem in Hb as [_ Hb]. assert (Hnd : node (size ls) (N.of_nat r) i) by (by eapply needed_node).
    destruct (proj1 Hready r i) as [l El]; [by right|]. rewrite (hvL_some _ _ _ _ _ El). apply Hag; [by apply trees_under|done].
Qed.
(** It lists the true hashes of some needed nodes, in order. *)
Lemma accepted_sub p ls bp ths p' : PInv H p ls -> size ls < 2 ^ 31 -> proof_wf bp -> P_Verify H p bp ths = Ok (true, p') ->
  shows_collision H p' ls \/ (valid_targets (size ls) (m_sorted_targets bp) /\ ths = leaf_at ls <$> m_sorted_targets bp /\
    rev (m_proof bp) `sublist_of` (gx (nh H (leaf_at ls)) <$> belowp (size ls) (m_sorted_targets bp) (S (N.to_nat (NumRows (size ls)))))).
Proof.
  intros (Hpn & L0 & M0 & HR0 & Hg0) Hn31 Hwf E. destruct (accepted_takes p ls bp ths p' L0 M0 Hpn HR0 Hg0 Hn31 Hwf E) as [?|(Hv & Ht & Hh)]; [by left|right].
  split; [done|]. split; [done|]. apply takes_sublist in Hh as (us & Hu & E'). rewrite app_nil_r in E'. by rewrite E'.
Qed.

Lemma accepted_honest f p bp ths p' ls : synced H f p -> holds_leaves f ls -> proof_wf bp -> P_Verify H p bp ths = Ok (true, p') ->
  shows_collision H p' ls \/ exists q, F_Prove f ths = Ok (Some q) /\ m_sorted_targets q = m_sorted_targets bp /\ m_proof bp `sublist_of` m_proof q /\
    valid_targets (size ls) (m_sorted_targets bp) /\ ths = leaf_at ls <$> m_sorted_targets bp /\ honest (size ls) (m_sorted_targets bp) (nh H (leaf_at ls)) (m_proof q).
Proof.
  intros Hs Hh Hwf E. destruct (synced_holds H f p ls Hs Hh) as (us & Hr & Hn & HP & _).
  destruct (accepted_sub p ls bp ths p' HP Hn Hwf E) as [Hc|(Hv & Hths & Hsl)]; [by left|right].
  pose proof Hh as [Hfn Hg]. assert (HhR : is_height (f_n f) (NumRows (f_n f))) by (by apply NumRows_height).
  destruct (C06_lem H f us ls ths _ Hr Hh HhR) as [_ Hgood]. destruct Hv as [Hss Hlt]. rewrite Forall_forall in Hlt.
  assert (Hnd : NoDup ls) by (destruct (reachable_holds H f us ls Hr Hh) as (Hi & _); by apply (inv_NoDup H f ls Hi)).
  assert (Hndt : NoDup ths).
  { rewrite Hths. apply NoDup_fmap_2_strong; [|by apply sorted_lt_NoDup]. intros x y Hx Hy. apply leaf_at_inj; [done|by apply Hlt|by apply Hlt]. }
  destruct (Hgood Hndt) as (q & ps & EF & HF & Hperm & Hsrt & Hps & Hprf).
  { intros h. rewrite Hths. intros (t & -> & Ht)%elem_of_list_fmap. apply leaf_at_elem. by apply Hlt. }
  exists q. split; [done|].
  assert (Et : m_targets q = m_sorted_targets bp).
  { rewrite Hths in HF. apply Forall2_fmap_l in HF. clear - HF Hg Hfn Hnd Hlt. revert Hlt. induction HF as [|a t ts tq [Ht Ea] _ IH]; [done|]. intros Hlt.
    f_equal; [|apply IH; intros x Hx; apply Hlt; by right]. rewrite Hfn in Ht. rewrite (Hg t Ht) in Ea. injection Ea as Ea. apply (leaf_at_inj ls) in Ea; [done|done|done|]. apply Hlt. by left. }
  assert (Est : m_sorted_targets q = m_sorted_targets bp).
  { apply ssorted_eq; [done|done|]. intros x. by rewrite Hperm, Et. }
  split; [done|].
  assert (Hho : honest (size ls) (m_sorted_targets bp) (nh H (leaf_at ls)) (m_proof q)) by (exists ps; by rewrite <- Hfn, <- Et).
  assert (Hhon : rev (m_proof q) = (λ x : nat * N, nh H (leaf_at ls) x.1 x.2) <$> belowp (size ls) (m_sorted_targets bp) (S (N.to_nat (NumRows (size ls))))).
  { rewrite <- belowp_hash. apply honest_rev; [assert (2 ^ 31 <= 2 ^ 62) by done; lia|done]. }
  assert (Hsub : rev (m_proof bp) `sublist_of` rev (m_proof q)) by (rewrite Hhon; exact Hsl).
  apply rev_sublist in Hsub. split; [done|]. split; [|done]. split; [done|]. by apply Forall_forall.
Qed.
Lemma C57_lem f p bp ths p' ls : synced H f p -> holds_leaves f ls -> proof_wf bp -> P_Verify H p bp ths = Ok (true, p') ->
  shows_collision H p' ls \/ exists q, F_Prove f ths = Ok (Some q) /\ m_sorted_targets q = m_sorted_targets bp /\ m_proof bp `sublist_of` m_proof q.
Proof.
  intros Hs Hh Hwf E. destruct (accepted_honest f p bp ths p' ls Hs Hh Hwf E) as [?|(q & E1 & E2 & E3 & _)]; [by left|right]. by exists q.
Qed.
(** A complete proof that one pollard accepts is accepted by all. *)
Lemma C58_partial_lem f p1 p2 bp ths p1' ls q : synced H f p1 -> synced H f p2 -> holds_leaves f ls -> proof_wf bp -> P_Verify H p1 bp ths = Ok (true, p1') ->
  F_Prove f ths = Ok (Some q) -> (length (m_proof q) <= length (m_proof bp))%nat ->
  shows_collision H p1' ls \/ (m_proof bp = m_proof q /\ exists p2', P_Verify H p2 bp ths = Ok (true, p2')).
Proof.
  intros Hs1 Hs2 Hh Hwf E Eq Hlen. destruct (accepted_honest f p1 bp ths p1' ls Hs1 Hh Hwf E) as [Hc|(q' & Eq' & Et & Hsub & Hv & Hths & Hho)]; [by left|right].
  rewrite Eq in Eq'. injection Eq' as <-.
  assert (Ep : m_proof bp = m_proof q) by (by apply sublist_full).
  split; [done|]. rewrite <- Ep in Hho. destruct (synced_holds H f p2 ls Hs2 Hh) as (us & Hr & Hn & HP & _).
  pose proof (Verify_inv H p2 ls bp ths HP Hn Hwf) as HV. destruct (P_Verify H p2 bp ths) as [[b p2']| | | |]; cbn [wp] in HV; try done.
  - destruct HV as (_ & _ & _ & _ & HV). destruct (HV Hv Hho Hths) as [-> _]. by exists p2'.
  - by destruct HV as [HV _].
Qed.
End Unique.

(** ** What a pollard accepts depends on what it stores. *)
Definition adds58 : list leaf := [(10, true); (11, false)].
Definition run58 (H : hash -> hash -> hash) : res (bool * bool * bool * bool) :=
  let* f := F_Modify H (RamForest_new 0) adds58 [] in
  let* p := P_Modify H (Pollard_new 0) adds58 [] in
  let* q := P_Prune p.2 in
  let* v := P_Verify H p.2 (BatchProof [0] []) [10] in
  let* w := P_Verify H q (BatchProof [0] []) [10] in
  Ok (f.1, p.1, v.1, w.1).
Lemma run58_ok : run58 ex_H = Ok (true, true, true, false).
Proof. vm_compute. reflexivity. Qed.
Lemma run58_inv H : run58 H = Ok (true, true, true, false) -> exists f p q v w, F_Modify H (RamForest_new 0) adds58 [] = Ok (true, f) /\
  P_Modify H (Pollard_new 0) adds58 [] = Ok (true, p) /\ P_Prune p = Ok q /\ synced H f p /\ synced H f q /\
  P_Verify H p (BatchProof [0] []) [10] = Ok (true, v) /\ P_Verify H q (BatchProof [0] []) [10] = Ok (false, w).
Proof.
  unfold run58. intros E. apply bind_ok in E as ([b1 f] & E1 & E). apply bind_ok in E as ([b2 p] & E2 & E). cbn [fst snd] in E. apply bind_ok in E as (q & E0 & E).
  apply bind_ok in E as ([b3 v] & E3 & E). apply bind_ok in E as ([b4 w] & E4 & E). cbn [fst snd] in E.
  assert (b1 = true /\ b2 = true /\ b3 = true /\ b4 = false) as (-> & -> & -> & ->) by (split_and!; congruence).
  assert (Hs : synced H f p) by (by apply (sync_start H adds58)).
  exists f, p, q, v, w. split; [exact E1|]. split; [exact E2|]. split; [exact E0|]. split; [exact Hs|]. split; [by eapply sy_prune|]. split; [exact E3|exact E4].
Qed.
Lemma C58_refuted_lem : exists H f p1 p2 bp ths p1' p2', synced H f p1 /\ synced H f p2 /\ P_Roots p1 = P_Roots p2 /\ p_n p1 = p_n p2 /\
  P_Verify H p1 bp ths = Ok (true, p1') /\ P_Verify H p2 bp ths = Ok (false, p2').
Proof.
  destruct (run58_inv ex_H run58_ok) as (f & p & q & v & w & _ & _ & _ & Hs & Hs' & E3 & E4).
  destruct (C25_lem ex_H f p Hs) as [R1 R2], (C25_lem ex_H f q Hs') as [R1' R2'].
  exists ex_H, f, p, q, (BatchProof [0] []), [10], v, w. split; [exact Hs|]. split; [exact Hs'|]. split; [congruence|]. split; [congruence|]. split; [exact E3|exact E4].
Qed.

(** ** Examples *)
Lemma grow_holds H (adds : list leaf) f : size adds < 2 ^ 31 -> NoDup adds.*1 -> F_Modify H (RamForest_new 0) adds [] = Ok (true, f) -> holds_leaves f adds.*1.
Proof. intros Hb Hnd E. destruct (grow_new H adds Hb Hnd) as (f' & E' & _ & Hh). assert (f' = f) as -> by congruence. exact Hh. Qed.
Lemma ex_accepted : (exists f p bp v, synced ex_H f p /\ holds_leaves f ex_ls /\ F_Prove f [11; 12; 15] = Ok (Some bp) /\ P_Verify ex_H p bp [11; 12; 15] = Ok (true, v)) /\
  (exists f p v, synced ex_H f p /\ holds_leaves f [10; 11] /\ P_Verify ex_H p (BatchProof [0] []) [10] = Ok (true, v)) /\
  (exists f p v, synced ex_H f p /\ holds_leaves f [10; 11] /\ P_Verify ex_H p (BatchProof [0] [8]) [15] = Ok (true, v)).
Proof.
  split; [|split].
  - destruct ex_sync as (f & p & bp & v & f' & p' & H1 & H2 & H3 & _ & H5 & _). exists f, p, bp, v. split; [exact H1|]. split; [exact H2|]. split; [exact H3|exact H5].
  - destruct (run58_inv ex_H run58_ok) as (f & p & q & v & w & E1 & _ & _ & Hs & _ & E3 & _). exists f, p, v. split; [exact Hs|]. split; [|exact E3].
    apply (grow_holds ex_H adds58); [exact (eq_refl Lt)| |exact E1]. apply (bool_decide_unpack _). by vm_compute.
  - destruct ex_forge as (f & p & v & w & H1 & H2 & H3 & _). exists f, p, v. split; [exact H1|]. split; [exact H2|exact H3].
Qed.
Definition run_two (H : hash -> hash -> hash) : res (bool * bool * bool * nat * N * N) :=
  let* f := F_Modify H (RamForest_new 0) ex_adds0 [] in
  let* p := P_Modify H (Pollard_new 0) ex_adds0 [] in
  let* q := P_Prune p.2 in
  let* bp := F_Prove f.2 [11; 12; 15] in
  match bp with
  | Some bp => let* v := P_Verify H p.2 bp [11; 12; 15] in Ok (f.1, p.1, v.1, length (m_proof bp), P_NumCachedLeaves p.2, P_NumCachedLeaves q)
  | None => Abort
  end.
Lemma run_two_ok : run_two ex_H = Ok (true, true, true, 3%nat, 2, 0).
Proof. vm_compute. reflexivity. Qed.
Lemma run_two_inv H x : run_two H = Ok (true, true, true, x, 2, 0) -> exists f p1 p2 bp v, F_Modify H (RamForest_new 0) ex_adds0 [] = Ok (true, f) /\ synced H f p1 /\ synced H f p2 /\
  P_NumCachedLeaves p1 = 2 /\ P_NumCachedLeaves p2 = 0 /\ P_Verify H p1 bp [11; 12; 15] = Ok (true, v) /\ F_Prove f [11; 12; 15] = Ok (Some bp) /\ length (m_proof bp) = x.
Proof.
  unfold run_two. intros E. apply bind_ok in E as ([b1 f] & E1 & E). apply bind_ok in E as ([b2 p] & E2 & E). cbn [fst snd] in E. apply bind_ok in E as (q & E0 & E).
  apply bind_ok in E as ([bp|] & E3 & E); [|discriminate E]. apply bind_ok in E as ([b4 v] & E4 & E). cbn [fst snd] in E.
  assert (b1 = true /\ b2 = true /\ b4 = true /\ length (m_proof bp) = x /\ P_NumCachedLeaves p = 2 /\ P_NumCachedLeaves q = 0) as (-> & -> & -> & Hx & Hp & Hq) by (split_and!; congruence).
  assert (Hs : synced H f p) by (apply (sync_start H ex_adds0); [exact (eq_refl Lt)|exact E1|exact E2]).
  exists f, p, q, bp, v. split; [exact E1|]. split; [exact Hs|]. split; [by eapply sy_prune|]. split; [exact Hp|]. split; [exact Hq|]. split; [exact E4|]. split; [exact E3|exact Hx].
Qed.
Lemma ex_two_pollards : exists f p1 p2 bp v, synced ex_H f p1 /\ synced ex_H f p2 /\ holds_leaves f ex_ls /\ P_NumCachedLeaves p1 = 2 /\ P_NumCachedLeaves p2 = 0 /\
  P_Verify ex_H p1 bp [11; 12; 15] = Ok (true, v) /\ F_Prove f [11; 12; 15] = Ok (Some bp) /\ length (m_proof bp) = 3%nat.
Proof.
  destruct (run_two_inv ex_H _ run_two_ok) as (f & p & q & bp & v & E1 & H1 & H2 & H3 & H4 & H5 & H6 & H7). exists f, p, q, bp, v.
  split; [exact H1|]. split; [exact H2|]. split.
  - apply (grow_holds ex_H ex_adds0); [exact (eq_refl Lt)| |exact E1]. apply (bool_decide_unpack _). by vm_compute.
  - split; [exact H3|]. split; [exact H4|]. split; [exact H5|]. split; [exact H6|exact H7].
Qed.
