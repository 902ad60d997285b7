(** * PollardHist: pollards in step with a forest (proofs) *)
From stdpp Require Import sorting.
From Verif Require Import Base StateModel CodecModel ForestModel PollardModel PosSpec PosFacts PathFacts MerkleSpec CodecSpec CodecFacts TargetFacts ForestFacts
  RowFacts TransformFacts SpecFacts RemoveFacts ForestInv AddFacts ForestSpec HistFacts ProofSpec ProveFacts PollardSpec PollardRep PollardOps PollardAdd PollardRemove PollardRows PollardInit PollardCreate
  PollardVerify PollardVerifyMain PollardPrune.
From Coq Require Import ZifyBool ZifyNat ZifyN.
Ltac Zify.zify_post_hook ::= idtac.
Ltac dlia := zify; Z.div_mod_to_equations; lia.

(** ** Honest proofs *)
Definition honest (n : N) (ts : list N) (g : nat -> N -> hash) (prf : list hash) : Prop :=
  exists ps, lists_nodes (NumRows n) (needed n ts) ps /\
    Forall2 (λ pos h, exists r i, slot (NumRows n) r i /\ pos = enc (NumRows n) r i /\ h = g (N.to_nat r) i) ps prf.
Lemma honest_rev n (Hn : n <= 2 ^ 62) ts g prf : honest n ts g prf -> rev prf = belowh n ts g (S (N.to_nat (NumRows n))).
Proof.
  intros (ps & Hps & HF).
  assert (EP : rev ps = below n (nrow n ts) (S (N.to_nat (NumRows n)))).
  { apply (below_lists n Hn (nrow n ts) (needed n ts)); [|apply nrow_elem| |done].
    - apply nrow_sorted.
    - intros r i Hi%nrow_elem. apply node_slot, (srow_node n ts), srow_elem. by right. }
  assert (HF' : Forall2 (λ pos h, exists r i, slot (NumRows n) r i /\ pos = enc (NumRows n) r i /\ h = g (N.to_nat r) i) (rev ps) (rev prf)).
  { rewrite <- !reverse_rev_eq || idtac. clear - HF. induction HF as [|x y l k Hx _ IH]; cbn [rev]; [constructor|]. apply Forall2_app; [done|]. repeat constructor. done. }
  rewrite EP in HF'. revert HF'. generalize (rev prf). clear. generalize (S (N.to_nat (NumRows n))). intros k. induction k as [|k IH]; intros l HF; cbn [below belowh] in *.
  - by apply Forall2_nil_inv_l in HF.
  - apply Forall2_app_inv_l in HF as (a & b & Ha & Hb & ->). rewrite (IH b Hb). f_equal. clear IH Hb.
    assert (Hsl : forall i, i ∈ rev (nrow n ts k) -> slot (NumRows n) (N.of_nat k) i).
    { intros i Hi. rewrite elem_of_list_In, <- in_rev, <- elem_of_list_In in Hi. apply nrow_elem in Hi. apply node_slot, (srow_node n ts), srow_elem. by right. }
    revert a Ha. induction (rev (nrow n ts k)) as [|i is IH]; intros a Ha; cbn [fmap list_fmap] in *.
    + by apply Forall2_nil_inv_l in Ha.
    + apply Forall2_cons_inv_l in Ha as (h & a' & (r & j & Hs & Ee & ->) & Ha & ->). rewrite (IH ltac:(intros; apply Hsl; by right) a' Ha).
      destruct (enc_inj _ _ _ _ _ (Hsl i ltac:(left)) Hs Ee) as [<- <-]. by rewrite Nat2N.id.
Qed.
Lemma hon_intro n (Hn : n <= 2 ^ 62) ts L0 g prf : honest n ts g prf -> hon n ts L0 g prf.
Proof. intros Hh. by apply hon_full, honest_rev. Qed.

Section Hist.
Context (H : hash -> hash -> hash).

Lemma nh_step n (ls : list hash) r d : node n (N.of_nat (S r)) d -> nh H (leaf_at ls) (S r) d = H (nh H (leaf_at ls) r (2 * d)) (nh H (leaf_at ls) r (2 * d + 1)).
Proof. done. Qed.

Lemma PInv_roots p ls : PInv H p ls -> P_Roots p = Ok (spec_roots H ls).
Proof. intros (_ & L & M & HR & Hg). exact (P_Roots_ok _ _ _ _ _ HR Hg). Qed.
Lemma PInv_stores p ls : PInv H p ls -> size ls <= 2 ^ 62 -> stores_only H p ls.
Proof.
  intros (Hpn & L & M & HR & Hg) Hn R r i h HhR Hi E. apply NumRows_height in HhR as <-.
  rewrite (P_Read_ok (size ls) Hn p L M r i Hpn HR Hi) in E. injection E as E. apply fmap_Some in E as (l & El & ->).
  apply Hg; [by apply trees_under|done].
Qed.
Lemma PInv_new : PInv H (Pollard_new 0) [].
Proof.
  destruct (Restore_ok 0 ltac:(done) (nh H (leaf_at [])) []) as (p & E & Hn & _ & HR & Hg); [done|].
  assert (Ep : Ok (Pollard_new 0) = Ok p) by (rewrite <- E; vm_compute; reflexivity). injection Ep as <-.
  split; [done|]. by exists (Lrest (trees 0)), (λ _, false).
Qed.
Lemma PInv_restore ls : size ls <= 2 ^ 62 -> exists p, Pollard_restore (spec_roots H ls) (size ls) = Ok p /\ PInv H p ls.
Proof.
  intros Hn. destruct (Restore_ok (size ls) Hn (nh H (leaf_at ls)) (spec_roots H ls) eq_refl) as (p & E & Hpn & _ & HR & Hg).
  exists p. split; [done|]. split; [done|]. by exists (Lrest (trees (size ls))), (λ _, false).
Qed.
Lemma PInv_prune p ls : PInv H p ls -> size ls <= 2 ^ 62 -> exists p', P_Prune p = Ok p' /\ PInv H p' ls /\ P_CountNodes p' = size (trees (size ls)) /\ P_NumCachedLeaves p' = 0 /\
  forall R r i, is_height (size ls) R -> node (size ls) (N.of_nat r) i -> ~ is_root (size ls) (N.of_nat r) i -> P_Read p' (enc R (N.of_nat r) i) = Ok None.
Proof.
  intros (Hpn & L & M & HR & Hg) Hn. destruct (Prune_ok p _ L M _ HR Hg) as (p' & E & En & _ & HR' & Hg' & Hc & Hz).
  exists p'. split; [done|]. split; [split; [congruence|by eauto]|]. split; [|split; [done|]].
  - unfold P_CountNodes. rewrite Hc. unfold w64. apply N.mod_small.
    assert (Hlt : size (trees (size ls)) <= 63); [|eapply N.le_lt_trans; [exact Hlt|done]].
    replace (size (trees (size ls))) with (NumRoots (size ls)); [apply NumRoots_le; change (2 ^ 63) with (2 * 2 ^ 62); lia|].
    rewrite NumRoots_ok. unfold size at 3. unfold trees. by rewrite fmap_length.
  - intros R r i HhR Hi Hnr. apply NumRows_height in HhR as <-. rewrite (P_Read_ok (size ls) Hn p' (Lroot (trees (size ls)) L) (λ _, false) r i ltac:(congruence) HR' Hi).
    unfold Lroot. rewrite decide_False; [done|]. by rewrite trees_elem.
Qed.

(** ** Verify *)
Definition zero_cached (p : pollard) (ls : list hash) (ts : list N) : Prop :=
  exists r i, needed (size ls) ts (N.of_nat r) i /\ P_Read p (enc (NumRows (size ls)) (N.of_nat r) i) = Ok (Some zero_hash) /\ nh H (leaf_at ls) r i = zero_hash.

Definition grown_marks (ls : list hash) (ts : list N) (M0 M : N -> bool) : Prop :=
  (forall i, i < size ls -> M0 i = true -> M i = true) /\ forall i, i < size ls -> M i = true -> M0 i = true \/ i ∈ ts.
Lemma grown_intro ls ts M0 M : grown (size ls) M0 ts M -> grown_marks ls ts M0 M.
Proof. intros [H1 H2]. split; intros i Hi; [apply H1|apply H2]; apply trees_under; unfold node; change (2 ^ N.of_nat 0) with 1; lia. Qed.

Lemma Verify_mark p ls M0 bp ths : PMark H p ls M0 -> size ls < 2 ^ 31 -> proof_wf bp ->
  wp (~ honest (size ls) (m_sorted_targets bp) (nh H (leaf_at ls)) (m_proof bp) /\ zero_cached p ls (m_sorted_targets bp)) (P_Verify H p bp ths) (λ '(b, p'),
    p_n p' = p_n p /\ P_Roots p' = P_Roots p /\ (b = false -> p_posmap p' = p_posmap p /\ (exists M, PMark H p' ls M /\ grown_marks ls (m_sorted_targets bp) M0 M /\ (PTight p (size ls) M0 -> PTight p' (size ls) M)) /\ forall r i, node (size ls) (N.of_nat r) i -> P_Read p' (enc (NumRows (size ls)) (N.of_nat r) i) = P_Read p (enc (NumRows (size ls)) (N.of_nat r) i)) /\
    (b = true -> (valid_targets (size ls) (m_sorted_targets bp) /\ length ths = length (m_sorted_targets bp) /\ p_posmap p' = pm_add (p_posmap p) (zip ths (m_sorted_targets bp))) /\ (shows_collision H p' ls \/ ((exists M, PReadyM H p' ls (m_sorted_targets bp) M /\ grown_marks ls (m_sorted_targets bp) M0 M /\ (PTight p (size ls) M0 -> PTight p' (size ls) M)) /\ ths = leaf_at ls <$> m_sorted_targets bp))) /\
    (valid_targets (size ls) (m_sorted_targets bp) -> honest (size ls) (m_sorted_targets bp) (nh H (leaf_at ls)) (m_proof bp) -> ths = leaf_at ls <$> m_sorted_targets bp -> b = true /\ PReady H p' ls (m_sorted_targets bp))).
Proof.
  intros HP Hn31 Hwf. assert (Hmax : int_max + 1 = 2 ^ 31) by done. assert (Hn : size ls <= 2 ^ 62) by (assert (2 ^ 31 <= 2 ^ 62) by done; lia). pose proof HP as (Hpn & L0 & HR0 & Hg0). pose proof (PInv_roots p ls (proj2 (PInv_mark H p ls) (ex_intro _ M0 HP))) as Hroots.
  pose proof (Verify_ok H (size ls) Hn p L0 M0 (nh H (leaf_at ls)) Hpn HR0 Hg0 (nh_step (size ls) ls) bp ths ltac:(lia) Hwf) as HV.
  destruct (P_Verify H p bp ths) as [[b p']| | | |]; cbn [wp] in HV |- *; try done.
  - destruct HV as (Hf & Ht & Hh & _). destruct b.
    + destruct (Ht eq_refl) as (E1 & E2 & E3 & Hv & L & M & HR & Hsub & [HM Hti] & Hag0 & Hready & Hhon & _ & Hd). split; [congruence|]. split.
      { rewrite Hroots. rewrite (P_Roots_at p' _ L M (nh H (leaf_at ls)) HR); [done|]. intros r i l Hr El.
        destruct (rp_root _ _ _ _ HR0 r i Hr) as [l0 El0]. rewrite (Hsub _ _ _ El0) in El. injection El as <-. apply Hag0; [by apply inT_root|done]. }
      split; [done|]. split.
      2: { intros _ Hhn Hth. split; [done|]. split; [done|]. exists L, M. split; [done|]. split; [|done]. apply Hhon; [by apply hon_intro|done]. }
      intros _. split; [done|]. destruct Hd as [(r & d & Hc & Hne & Heq)|[Hag Hths]].
      * left. assert (Hnode : node (size ls) (N.of_nat (S r)) d) by (apply cmpb_iff in Hc; apply Hc).
        assert (Hk : forall x, x / 2 = d -> is_Some (L r x)).
        { intros x Hx. apply Hready. apply srow_elem. unfold srow. apply elem_of_app. left. apply kids_elem. rewrite Hx. by apply crow_elem, cmpb_iff. }
        destruct (half_2 d) as [D1 D2]. destruct (Hk _ D1) as [la Ea]. destruct (Hk _ D2) as [lb Eb].
        assert (Hin : inT (trees (size ls)) (S r) d) by (by apply trees_under).
        exists (NumRows (size ls)), r, d, (hv (p_heap p') la), (hv (p_heap p') lb). split; [by apply NumRows_height|]. split; [done|].
        assert (Hn1 : node (size ls) (N.of_nat r) (2 * d)) by (apply trees_under, inT_kid; by rewrite D1).
        assert (Hn2 : node (size ls) (N.of_nat r) (2 * d + 1)) by (apply trees_under, inT_kid; by rewrite D2).
        rewrite (P_Read_ok (size ls) Hn p' L M r _ E1 HR Hn1), (P_Read_ok (size ls) Hn p' L M r _ E1 HR Hn2), Ea, Eb. split; [done|]. split; [done|].
        rewrite (hvL_some _ _ _ _ _ Ea), (hvL_some _ _ _ _ _ Eb) in Hne, Heq. done.
      * right. split; [|exact Hths]. exists M. split; [split; [done|]; by exists L|]. split; [by apply grown_intro|]. intros Ht0. apply (PTight_iff p' (size ls) L M M Hn E1 HR), Hti. by apply (PTight_iff p (size ls) L0 M0 M0 Hn Hpn HR0).
    + destruct (Hf eq_refl) as (E1 & E2 & M & HM & HR & Hag & _). assert (HP' : PMark H p' ls M) by (split; [done|]; by exists L0).
      split; [congruence|]. split; [by rewrite Hroots, (PInv_roots p' ls (proj2 (PInv_mark H p' ls) (ex_intro _ M HP')))|]. split; [intros _; split; [done|]; split; [exists M; split; [exact HP'|split; [by apply grown_intro|]]|]|].
      { intros Ht0. apply (PTight_iff p' (size ls) L0 M M Hn E1 HR). apply (PTight_iff p (size ls) L0 M0 M0 Hn Hpn HR0) in Ht0. intros r x Hx Hl.
        destruct (Ht0 r x Hx Hl) as (i & Hi & Ei). exists i. split; [|done]. apply HM; [|done]. rewrite <- Ei in Hx. by apply inT_down in Hx. }
      { intros r i Hi. rewrite (P_Read_ok (size ls) Hn p' L0 M r i E1 HR Hi), (P_Read_ok (size ls) Hn p L0 M0 r i Hpn HR0 Hi). destruct (L0 r i) as [l|] eqn:El; [|done].
        cbn [fmap option_fmap option_map]. do 2 f_equal. apply trees_under in Hi. by rewrite (Hag _ _ _ Hi El), (Hg0 _ _ _ Hi El). }
      split; [done|].
      intros Hv Hhon Hths. assert (Hx : false = true) by (apply Hh; [done|by apply hon_intro|done]). done.
  - destruct HV as (_ & _ & Hnh & (r & i & Hnd & [l El] & Ez) & _). split; [intros Hx; apply Hnh; by apply hon_intro|]. exists r, i. split; [done|]. split; [|done].
    assert (Hi : node (size ls) (N.of_nat r) i) by (by eapply needed_node).
    rewrite (P_Read_ok (size ls) Hn p L0 M0 r i Hpn HR0 Hi), El. cbn [fmap option_fmap option_map]. do 2 f_equal. rewrite <- Ez. apply Hg0; [by apply trees_under|done].
Qed.

Lemma Verify_inv p ls bp ths : PInv H p ls -> size ls < 2 ^ 31 -> proof_wf bp ->
  wp (~ honest (size ls) (m_sorted_targets bp) (nh H (leaf_at ls)) (m_proof bp) /\ zero_cached p ls (m_sorted_targets bp)) (P_Verify H p bp ths) (λ '(b, p'),
    p_n p' = p_n p /\ P_Roots p' = P_Roots p /\ (b = false -> p_posmap p' = p_posmap p /\ PInv H p' ls /\ forall r i, node (size ls) (N.of_nat r) i -> P_Read p' (enc (NumRows (size ls)) (N.of_nat r) i) = P_Read p (enc (NumRows (size ls)) (N.of_nat r) i)) /\
    (b = true -> (valid_targets (size ls) (m_sorted_targets bp) /\ length ths = length (m_sorted_targets bp) /\ p_posmap p' = pm_add (p_posmap p) (zip ths (m_sorted_targets bp))) /\ (shows_collision H p' ls \/ (PReady H p' ls (m_sorted_targets bp) /\ ths = leaf_at ls <$> m_sorted_targets bp))) /\
    (valid_targets (size ls) (m_sorted_targets bp) -> honest (size ls) (m_sorted_targets bp) (nh H (leaf_at ls)) (m_proof bp) -> ths = leaf_at ls <$> m_sorted_targets bp -> b = true /\ PReady H p' ls (m_sorted_targets bp))).
Proof.
  intros [M0 HP]%PInv_mark Hn Hwf. eapply wp_mono; [by apply (Verify_mark p ls M0 bp ths HP Hn Hwf)|]. intros [b p'] (E1 & E2 & Hf & Ht & Hh).
  split; [done|]. split; [done|]. split; [|split; [|done]].
  - intros Eb. destruct (Hf Eb) as (E3 & (M & HM & _) & Hrd). split; [done|]. split; [|done]. apply PInv_mark. by exists M.
  - intros Eb. destruct (Ht Eb) as (E3 & [Hc|[(M & HM & _) Hths]]); (split; [done|]); [by left|right]. split; [|done]. apply PReady_mark. by exists M.
Qed.

(** ** Histories *)
Lemma stored_stock f p ls M ts : PMark H p ls M -> size ls <= 2 ^ 62 -> f_n f = size ls -> has_nodes f p ts -> PStockM H p ls ts M.
Proof.
  intros (Hpn & L & HR & Hg) Hn Hfn Hst. split; [done|]. exists L. split; [done|]. split; [done|]. intros r i Hc.
  assert (Hnode : node (size ls) (N.of_nat r) i) by (destruct Hc as [[Hc _]|Hc%needed_node]; done).
  unfold has_nodes in Hst. rewrite Hfn in Hst. destruct (Hst (NumRows (size ls)) (N.of_nat r) i ltac:(by apply NumRows_height) Hc) as [v E].
  rewrite (P_Read_ok (size ls) Hn p L M r i Hpn HR Hnode) in E. injection E as E. by apply fmap_Some in E as (l & -> & _).
Qed.
Lemma stored_targets f us ls (adds : list leaf) ts f' : reachable H f us -> holds_leaves f ls -> f_n f + size adds < 2 ^ 31 + size ts ->
  F_Modify H f adds ts = Ok (true, f') -> valid_targets (size ls) ts /\ size ts <= size ls.
Proof.
  intros Hr Hh Hb EF. pose proof Hh as [Hfn _]. rewrite Hfn in Hb. destruct (C02_lem H f us ls adds ts f' Hr Hh Hb ltac:(by left)) as [Hv _]. split; [done|].
  pose proof (leaf_row_dead ls ts Hv) as Hd. rewrite <- Hd. pose proof (dead_size (leaf_row ls ts)) as Hds. rewrite leaf_row_size in Hds. lia.
Qed.
Lemma stored_hashes f ls ts ths : holds_leaves f ls -> valid_targets (size ls) ts -> Forall2 (λ t h, F_GetLeaf f t = Ok h) ts ths <-> ths = leaf_at ls <$> ts.
Proof.
  intros [_ Hg] [_ Hlt]. split.
  - intros Hf. revert Hlt. induction Hf as [|t h ts ths E Hf IH]; intros Hlt; [done|]. inversion_clear Hlt. rewrite fmap_cons, <- IH by done. f_equal. rewrite Hg in E by done. by injection E.
  - intros ->. induction Hlt as [|t ts Ht Hlt IH]; [constructor|]. rewrite fmap_cons. constructor; [by apply Hg|done].
Qed.
Lemma synced_inv f p : synced H f p -> exists us ls, reachable H f us /\ holds_leaves f ls /\ size ls < 2 ^ 31 /\ PInv H p ls.
Proof.
  assert (H62 : 2 ^ 31 <= 2 ^ 62) by done.
  induction 1 as [|f us p Hr E|f p bp ths b p' Hs IH (Hwf & E & Hnc)|f p p' Hs IH E|f p bp ths p1 adds f' p' Hs IH (Hwf & E & Hnc) Hb EF EP|f p adds ts f' p' Hs IH Hst Hb EF EP].
  - exists [], []. split; [constructor|]. split; [|split; [done|apply PInv_new]]. split; [done|]. intros i Hi. change (size (@nil hash)) with 0 in Hi. lia.
  - destruct (C01_lem H f us Hr) as (ls & Hh & _). exists us, ls. split; [done|]. split; [done|].
    destruct (reachable_holds H f us ls Hr Hh) as (Hi & Hn & _). split; [done|].
    destruct (PInv_restore ls ltac:(lia)) as (q & Eq & HP). destruct Hh as [Hfn _]. rewrite Hfn, (inv_roots _ _ _ Hi), Eq in E. by injection E as <-.
  - destruct IH as (us & ls & Hr & Hh & Hn & HP). exists us, ls. split; [done|]. split; [done|]. split; [done|].
    pose proof (Verify_inv p ls bp ths HP ltac:(lia) Hwf) as HV. rewrite E in HV. cbn [wp] in HV. destruct HV as (_ & _ & Hf & Ht & _). destruct b.
    + destruct (Ht eq_refl) as [_ [Hc|[Hrd _]]]; [by apply Hnc in Hc|]. by eapply PReady_inv.
    + by apply Hf.
  - destruct IH as (us & ls & Hr & Hh & Hn & HP). exists us, ls. split; [done|]. split; [done|]. split; [done|].
    destruct (PInv_prune p ls HP ltac:(lia)) as (q & Eq & HP' & _). rewrite Eq in E. by injection E as <-.
  - destruct IH as (us & ls & Hr & Hh & Hn & HP). pose proof Hh as [Hfn _]. rewrite Hfn in Hb.
    assert (Hr' : reachable H f' []) by (eapply reach_modify; [exact Hr| |exact EF]; by rewrite Hfn).
    pose proof (C03_lem H f us ls adds _ f' Hr Hh Hb (or_introl EF)) as Hh'.
    pose proof (Verify_inv p ls bp ths HP ltac:(lia) Hwf) as HV. rewrite E in HV. cbn [wp] in HV. destruct HV as (_ & _ & _ & Ht & _).
    destruct (Ht eq_refl) as [(Hv & _ & _) [Hc|[Hrd _]]]; [by apply Hnc in Hc|].
    destruct (reachable_holds H f' [] _ Hr' Hh') as (_ & Hn' & _).
    eexists [], _. split; [done|]. split; [exact Hh'|]. split; [done|].
    assert (Hsz : size (m_sorted_targets bp) <= size ls).
    { pose proof (leaf_row_dead ls (m_sorted_targets bp) Hv) as Hd. rewrite <- Hd. pose proof (dead_size (leaf_row ls (m_sorted_targets bp))) as Hds.
      rewrite leaf_row_size in Hds. lia. }
    destruct (P_Modify_ok H p1 ls _ adds Hrd ltac:(lia) Hv) as (q & Eq & HPq). rewrite Eq in EP. by injection EP as <-.
  - destruct IH as (us & ls & Hr & Hh & Hn & [M HP]%PInv_mark). destruct (stored_targets f us ls adds ts f' Hr Hh Hb EF) as [Hv Hsz].
    assert (H62' : 2 ^ 31 + 2 ^ 31 <= 2 ^ 62) by done. pose proof Hh as [Hfn _].
    pose proof (stored_stock f p ls M ts HP ltac:(lia) Hfn Hst) as Hrd. rewrite Hfn in Hb.
    assert (Hr' : reachable H f' []) by (eapply reach_modify; [exact Hr| |exact EF]; by rewrite Hfn).
    pose proof (C03_lem H f us ls adds _ f' Hr Hh Hb (or_introl EF)) as Hh'.
    destruct (reachable_holds H f' [] _ Hr' Hh') as (_ & Hn' & _).
    eexists [], _. split; [done|]. split; [exact Hh'|]. split; [done|].
    destruct (P_Modify_mark H p ls ts M adds Hrd ltac:(lia) Hv) as (q & _ & M' & Eq & HPq & _). rewrite Eq in EP. injection EP as <-. apply PInv_mark. by exists M'.
Qed.
End Hist.
