(** * FullFacts: a pollard told to remember every leaf (proofs) *)
From stdpp Require Import sorting.
From Verif Require Import Base StateModel CodecModel ForestModel PollardModel PosSpec PosFacts PathFacts MerkleSpec CodecSpec CodecFacts TargetFacts ForestFacts
  RowFacts TransformFacts SpecFacts RemoveFacts ForestInv AddFacts ForestSpec HistFacts ProofSpec ProveFacts PollardSpec PollardRep PollardOps PollardAdd PollardRemove PollardRows PollardInit PollardCreate
  PollardVerify PollardVerifyMain PollardPrune PollardHist PollardProps PollardCount PosmapFacts PollardRecall PollardKeys ForestExamples PollardExamples FullSpec.
From Coq Require Import ZifyBool ZifyNat ZifyN.
Ltac Zify.zify_post_hook ::= idtac.

Section Full.
Context (H : hash -> hash -> hash).

(** With every leaf marked every node is stored. *)
Lemma all_stored n p L M : n <= 2 ^ 62 -> rep p (trees n) L M -> all_marked n M -> forall r i, node n (N.of_nat r) i -> is_Some (L r i).
Proof.
  intros Hn HR HM. induction r as [|r IH]; intros i Hi.
  - apply (marked_stored n Hn p L M HR HM). by apply node_leaf.
  - assert (HT : inT (trees n) (S r) i) by (by apply trees_under). assert (HT' : inT (trees n) (S r) (hp (trees n) (S r) i)) by (apply inT_hp; [apply HR|done]).
    destruct (half_2 (hp (trees n) (S r) i)) as [E _].
    destruct (IH (2 * hp (trees n) (S r) i)) as [l El].
    { apply trees_under in HT'. unfold node in *. rewrite pow_nat_S in HT'. nia. }
    pose proof (rep_holder _ _ _ _ HR r (2 * hp (trees n) (S r) i) l) as Hh. rewrite E in Hh. specialize (Hh HT' El). rewrite hp_hp in Hh by (apply HR || done). done.
Qed.

Definition full (f : forest) (p : pollard) : Prop := exists us ls M, reachable H f us /\ holds_leaves f ls /\ size ls < 2 ^ 31 /\ PMark H p ls M /\
  all_marked (size ls) M /\ pm_right (size ls) p (nh H (leaf_at ls)).

Lemma full_verify f p bp ths b p' : full f p -> verifies H f p bp ths b p' -> full f p'.
Proof.
  intros (us & ls & M & Hr & Hh & Hn & HP & HM & Hpm) (Hwf & E & Hnc). exists us, ls. destruct (reachable_holds H f us ls Hr Hh) as (Hi & _). pose proof (inv_NoDup H f ls Hi) as Hnd.
  pose proof (Verify_mark H p ls M bp ths HP Hn Hwf) as HV. rewrite E in HV. cbn [wp] in HV. destruct HV as (_ & _ & Hf & Ht & _). destruct b.
  - destruct (Ht eq_refl) as [(Hv & _ & Ep) [Hc|[(M1 & (Hpn & L & HR & Hg & _) & [Hgr _] & _) Hths]]]; [by apply Hnc in Hc|].
    exists M1. split; [done|]. split; [done|]. split; [done|]. split; [split; [done|]; by exists L|]. split; [intros x Hx; apply Hgr; [done|by apply HM]|].
    assert (Hlt : forall t, t ∈ m_sorted_targets bp -> t < size ls) by (apply Forall_forall, Hv).
    intros h x. rewrite <- (Hpm h x). rewrite Ep. f_equiv. destruct (decide (h ∈ ths)) as [[k Hk]%elem_of_list_lookup|Hh']; [|by apply pm_add_notin].
    pose proof Hk as Hk'. rewrite Hths, list_lookup_fmap in Hk'. apply fmap_Some in Hk' as (t & Ht' & ->).
    rewrite (pm_add_lookup _ _ _ k _ t); [|rewrite Hths|done|done].
    + symmetry. apply Hpm. split; [|done]. apply Hlt. by eapply elem_of_list_lookup_2.
    + apply NoDup_fmap_2_strong; [|apply sorted_lt_NoDup, Hv]. intros y z Hy Hz. apply leaf_at_inj; [done|by apply Hlt|by apply Hlt].
  - destruct (Hf eq_refl) as (Ep & (M1 & HP1 & [Hgr _] & _) & _). exists M1. split; [done|]. split; [done|]. split; [done|]. split; [done|].
    split; [intros x Hx; apply Hgr; [done|by apply HM]|]. intros h x. rewrite Ep. apply Hpm.
Qed.

Lemma full_ready p ls M ts : PMark H p ls M -> size ls < 2 ^ 31 -> all_marked (size ls) M -> valid_targets (size ls) ts -> PReadyM H p ls ts M.
Proof.
  intros (Hpn & L & HR & Hg) Hn HM Hv. assert (H62 : 2 ^ 31 <= 2 ^ 62) by done. split; [done|]. exists L. split; [done|]. split; [done|]. split.
  - intros r i Hc. apply (all_stored (size ls) p L M ltac:(lia) HR HM). destruct Hc as [Hc|Hc]; [apply Hc|by eapply needed_node].
  - intros t Ht. apply HM. destruct Hv as [_ Hf]. by apply (proj1 (Forall_forall _ _) Hf).
Qed.

Lemma full_modify f p (adds : list leaf) ts f' : full f p -> f_n f + size adds < 2 ^ 31 + size ts ->
  F_Modify H f adds ts = Ok (true, f') -> exists p', P_Modify H p adds ts = Ok (true, p') /\ (Forall (λ a : leaf, a.2 = true) adds -> full f' p').
Proof.
  intros (us & ls & M & Hr & Hh & Hn & HP & HM & Hpm) Hb EF. pose proof Hh as [Hfn Hgl]. rewrite Hfn in *. assert (H62 : 2 ^ 31 + 2 ^ 31 <= 2 ^ 62) by done.
  destruct (C02_lem H f us ls adds ts f' Hr Hh Hb ltac:(by left)) as [Hv _]. pose proof (valid_size H _ _ Hv) as Hsz.
  pose proof (full_ready p ls M ts HP Hn HM Hv) as Hrd.
  destruct (P_Modify_mark H p ls ts M adds (PReadyM_stock _ _ _ _ _ Hrd) ltac:(lia) Hv) as (p' & M1 & M' & EP & HP' & Hk & HM1 & HM2 & _ & _ & _ & p1 & EA & HP1 & Hpm1).
  exists p'. split; [done|]. intros Hall.
  pose proof (C03_lem H f us ls adds ts f' Hr Hh Hb ltac:(by left)) as Hh'.
  assert (Hr' : reachable H f' []) by (eapply reach_modify; [exact Hr| |exact EF]; by rewrite Hfn).
  destruct (reachable_holds H f' [] _ Hr' Hh') as (Hi' & Hn' & _). pose proof (inv_NoDup H f' _ Hi') as Hnd'.
  exists [], (spec_remove ls ts ++ adds.*1), M'. split; [done|]. split; [done|]. split; [done|]. split; [done|].
  remember (spec_remove ls ts) as ls1 eqn:E1. clear E1. specialize (Hpm1 HM Hpm).
  assert (Hsp : size (ls1 ++ adds.*1) = size ls1 + size adds) by (unfold leaf in *; unfold size; rewrite app_length, fmap_length; lia).
  assert (Hadd : forall k a, adds !! k = Some a -> a = (a.1, true)).
  { intros k [h b] Hk'. apply elem_of_list_lookup_2 in Hk'. rewrite Forall_forall in Hall. specialize (Hall _ Hk'). cbn [snd] in Hall. by subst b. }
  split.
  - intros x Hx. destruct (decide (x < size ls1)) as [Hx1|Hx1].
    + rewrite HM1 by done. destruct (Hk x Hx1) as (y & Hy & -> & _). by apply HM.
    + rewrite Hsp in Hx. destruct (lookup_lt_is_Some_2 adds (N.to_nat (x - size ls1))) as [a Ha]; [unfold size in *; lia|].
      rewrite (Hadd _ _ Ha) in Ha. pose proof (HM2 _ _ _ Ha) as E. replace (size ls1 + N.of_nat (N.to_nat (x - size ls1))) with x in E by lia. done.
  - destruct (P_Add_posmap H adds p1 ls1 M1 p' HP1 ltac:(lia) EA) as [A1 A2]. apply NoDup_app in Hnd' as (Hnd1 & Hdis & Hnd2). specialize (A2 Hnd2).
    assert (Efl : filter (λ a : leaf, a.2 = true) adds = adds).
    { clear - Hall. unfold leaf in *. induction Hall as [|a l Ha _ IH]; [done|]. by rewrite filter_cons_True, IH. }
    rewrite Efl in A1. intros h x. cbn [nh]. rewrite Hsp.
    assert (Hcase : (x < size ls1 + size adds /\ leaf_at (ls1 ++ adds.*1) x = h) <-> (x < size ls1 /\ leaf_at ls1 x = h) \/ (size ls1 <= x /\ adds !! N.to_nat (x - size ls1) = Some (h, true))).
    { rewrite <- Hsp, leaf_at_lookup, lookup_app_Some, leaf_at_lookup, list_lookup_fmap. f_equiv. unfold size. 
      replace (N.to_nat (x - N.of_nat (length ls1))) with (N.to_nat x - length ls1)%nat by lia. split.
      - intros [Hx E]. split; [lia|]. apply fmap_Some in E as (a & Ha & ->). unfold leaf in *. rewrite Ha. f_equal. by eapply Hadd.
      - intros [Hx E]. split; [lia|]. unfold leaf in *. by rewrite E. }
    rewrite Hcase. destruct (decide (h ∈ adds.*1)) as [Hin|Hin].
    + apply elem_of_list_fmap in Hin as (a & -> & [k Hk']%elem_of_list_lookup). rewrite (Hadd _ _ Hk') in Hk'. cbn [fst]. rewrite (A2 _ _ Hk'). split.
      * intros [= <-]. right. split; [lia|]. replace (N.to_nat (size ls1 + N.of_nat k - size ls1)) with k by lia. done.
      * intros [[Hx E]|[Hx E]].
        -- exfalso. apply (Hdis (leaf_at ls1 x) (leaf_at_elem ls1 x Hx)). rewrite E. apply elem_of_list_fmap. exists (a.1, true). split; [done|]. by eapply elem_of_list_lookup_2.
        -- f_equal. assert (Ek : N.to_nat (x - size ls1) = k); [|lia]. eapply (NoDup_lookup adds.*1 _ _ a.1 Hnd2); rewrite list_lookup_fmap; unfold leaf in *; [by rewrite E|by rewrite Hk'].
    + rewrite A1 by done. rewrite (Hpm1 h x). cbn [nh]. split; [by left|]. intros [?|[_ E]]; [done|]. exfalso. apply Hin, elem_of_list_fmap. exists (h, true). split; [done|]. by eapply elem_of_list_lookup_2.
Qed.

Lemma full_new : full (RamForest_new 0) (Pollard_new 0).
Proof.
  destruct (synced_inv H _ _ (sy_new H)) as (us & ls & Hr & Hh & Hn & [M HP]%PInv_mark). exists us, ls, M. split; [done|]. split; [done|]. split; [done|]. split; [done|].
  destruct Hh as [E _]. change (0 = size ls) in E. rewrite <- E. split; [intros x Hx; lia|]. intros h x. cbn [Pollard_new p_posmap]. rewrite lookup_empty. split; [done|intros [? _]; lia].
Qed.
Lemma full_all f p bp ths p' : synced H f p -> verifies H f p bp ths true p' ->
  (forall i h, i < f_n f -> F_GetLeaf f i = Ok h -> h ∈ ths) -> full f p'.
Proof.
  intros Hs Hv Hall. destruct (synced_recalls H f p Hs) as (lo & hi & Hrc). pose proof (rc_accept H f p lo hi bp ths p' Hrc Hv) as Hrc'.
  destruct (recalls_inv H _ _ _ _ Hrc') as (us & ls & M & Hr & Hh & Hn & HP & (H1 & H2 & H3)). pose proof Hh as [Hfn Hgl].
  assert (Hin : forall i, i < size ls -> leaf_at ls i ∈ ths) by (intros i Hi; apply (Hall i); [by rewrite Hfn|by apply Hgl]).
  exists us, ls, M. split; [done|]. split; [done|]. split; [done|]. split; [done|]. split.
  - intros x Hx. apply H2; [done|]. apply elem_of_union. right. rewrite elem_of_list_to_set. by apply Hin.
  - intros h x. cbn [nh]. destruct (decide (h ∈ ls)) as [Hl|Hl].
    + destruct (elem_leaf_at ls h Hl) as (i & Hi & <-). destruct (C44_verify_lem H f p bp ths p' (leaf_at ls i) Hs Hv) as [E _]. rewrite E by (by apply Hin).
      rewrite (C07_lem H f us _ x Hr), Hfn. split; intros [Hx E']; (split; [done|]); [rewrite (Hgl x Hx) in E'; by apply Ok_inv in E'|rewrite (Hgl x Hx); by rewrite E'].
    + split.
      * intros E. exfalso. apply Hl. apply (synced_keys H f p' (recalls_synced H _ _ _ _ Hrc') ls Hh). by rewrite E.
      * intros [Hx <-]. exfalso. apply Hl. by apply leaf_at_elem.
Qed.
Lemma full_full f p : full_history H f p -> full f p.
Proof.
  induction 1 as [|f p bp ths p' Hs Hv Hall|f p bp ths b p' Hf IH Hv|f p adds ts f' p' Hf IH Hb Hall EF EP].
  - apply full_new.
  - by eapply full_all.
  - by eapply full_verify.
  - destruct (full_modify f p adds ts f' IH Hb EF) as (q & Eq & Hq). rewrite Eq in EP. apply Ok_inv in EP. injection EP as <-. by apply Hq.
Qed.

Lemma C70_progress_lem f p (adds : list leaf) ts f' : full_history H f p -> f_n f + size adds < 2 ^ 31 + size ts ->
  F_Modify H f adds ts = Ok (true, f') -> exists p', P_Modify H p adds ts = Ok (true, p').
Proof. intros Hf%full_full Hb EF. destruct (full_modify f p adds ts f' Hf Hb EF) as (p' & E & _). by exists p'. Qed.
Lemma C70_roots_lem f p : full_history H f p -> P_Roots p = Ok (F_Roots f) /\ p_n p = f_n f.
Proof.
  intros (us & ls & M & Hr & Hh & Hn & HP & _)%full_full. destruct (reachable_holds H f us ls Hr Hh) as (Hi & _).
  assert (HPI : PInv H p ls) by (apply PInv_mark; by exists M). rewrite (PInv_roots H p ls HPI), (inv_roots _ _ _ Hi). split; [done|]. destruct HPI as [-> _]. by destruct Hh as [-> _].
Qed.
Lemma C70_posmap_lem f p : full_history H f p -> p_posmap p = f_posmap f.
Proof.
  intros (us & ls & M & Hr & Hh & Hn & HP & HM & Hpm)%full_full. destruct Hh as [Hfn Hgl]. apply map_eq. intros h. apply option_eq. intros x.
  rewrite (C07_lem H f us h x Hr), (Hpm h x), Hfn. cbn [nh]. split; intros [Hx E]; (split; [done|]); [rewrite (Hgl x Hx); by rewrite E|rewrite (Hgl x Hx) in E; by apply Ok_inv in E].
Qed.
Lemma C70_read_lem f p R r i : full_history H f p -> is_height (f_n f) R -> node (f_n f) r i ->
  exists h, P_Read p (enc R r i) = Ok (Some h) /\ F_Read f (enc R r i) = Ok h.
Proof.
  intros (us & ls & M & Hr & Hh & Hn & (Hpn & L & HR & Hg) & HM & Hpm)%full_full HhR Hx. assert (H62 : 2 ^ 31 <= 2 ^ 62) by done.
  destruct (reachable_holds H f us ls Hr Hh) as (Hi & _). destruct Hh as [Hfn Hgl]. rewrite Hfn in *. apply NumRows_height in HhR as <-.
  rewrite (inv_read H f ls r i Hi ltac:(lia) Hx). rewrite <- (N2Nat.id r) in Hx.
  destruct (all_stored (size ls) p L M ltac:(lia) HR HM _ _ Hx) as [l El]. eexists. split; [|done].
  pose proof (P_Read_ok (size ls) ltac:(lia) p L M (N.to_nat r) i Hpn HR Hx) as E. rewrite N2Nat.id in E. rewrite E, El. cbn [fmap option_fmap option_map]. do 2 f_equal.
  apply Hg; [by apply trees_under|done].
Qed.
Lemma C70_prove_lem f p hs : full_history H f p -> P_Prove p hs = F_Prove f hs.
Proof.
  intros Hf. pose proof (C70_posmap_lem f p Hf) as Epm. destruct (C70_roots_lem f p Hf) as [_ Epn].
  pose proof (full_full f p Hf) as (us & ls & M & Hr & Hh & Hn & _). assert (H62 : 2 ^ 31 <= 2 ^ 62) by done.
  assert (HhR : is_height (f_n f) (NumRows (f_n f))) by (by apply NumRows_height). destruct Hh as [Hfn _].
  unfold P_Prove, F_Prove. rewrite Epm, Epn. destruct (lookup_all (f_posmap f) hs) as [us'|]; [|done].
  destruct (CheckTargetsSanity_iff (f_n f) (sortN us')) as (b & -> & Hb). cbn [bind]. destruct b; [|done]. cbn [negb].
  destruct (ProofPositions_ok (f_n f) ltac:(lia) (sortN us')) as (P & C & -> & [_ HP] & _); [by apply Hb|]. cbn [bind fst].
  assert (Hread : forall q, q ∈ P -> exists h, P_Read p q = Ok (Some h) /\ F_Read f q = Ok h).
  { intros q (r & i & Hsl & -> & Hx)%HP. apply (C70_read_lem f p _ r i Hf HhR). by eapply needed_node. }
  clear HP. assert (E : exists hh, p_read_hashes p P = Ok (Some hh) /\ mapM_ (F_Read f) P = Ok hh).
  { induction P as [|q P IH]; [by exists []|]. destruct IH as (hh & E1 & E2); [intros; apply Hread; by right|]. destruct (Hread q ltac:(left)) as (h & F1 & F2).
    exists (h :: hh). cbn [p_read_hashes mapM_]. rewrite F1, F2. cbn [bind]. by rewrite E1, E2. }
  destruct E as (hh & -> & ->). done.
Qed.
Lemma C70_own_lem f p hs bp ths : full_history H f p -> P_Prove p hs = Ok (Some bp) ->
  Forall2 (λ t h, F_GetLeaf f t = Ok h) (m_sorted_targets bp) ths -> exists p', P_Verify H p bp ths = Ok (true, p').
Proof.
  intros Hf E Hths. rewrite (C70_prove_lem f p hs Hf) in E. apply full_full in Hf as (us & ls & M & Hr & Hh & Hn & HP & _).
  destruct (accepts_inv H f us ls p hs bp ths Hr Hh Hn ltac:(apply PInv_mark; by exists M) E Hths) as (p' & E' & _). by exists p'.
Qed.
End Full.

(** Eight leaves, all to remember; three of them deleted and one added.  Leaf 17
    moves from position 7 to position 3. *)
Definition adds70 : list leaf := [(10, true); (11, true); (12, true); (13, true); (14, true); (15, true); (16, true); (17, true)].
Definition run70 (H : hash -> hash -> hash) : res (bool * bool * bool * bool * N * option N * option N * option (list N)) :=
  let* f := F_Modify H (RamForest_new 0) adds70 [] in
  let* p := P_Modify H (Pollard_new 0) adds70 [] in
  let* f' := F_Modify H f.2 [(20, true)] [1; 2; 5] in
  let* p' := P_Modify H p.2 [(20, true)] [1; 2; 5] in
  let* bp := P_Prove p'.2 [20; 17] in
  Ok (f.1, p.1, f'.1, p'.1, f_n f.2, p_posmap p.2 !! 17, p_posmap p'.2 !! 17, m_targets <$> bp).
Lemma run70_ok H : run70 H = Ok (true, true, true, true, 8, Some 7, Some 3, Some [5; 3]).
Proof. vm_compute. reflexivity. Qed.
Lemma run70_inv H : run70 H = Ok (true, true, true, true, 8, Some 7, Some 3, Some [5; 3]) -> exists f p f' p' bp, F_Modify H (RamForest_new 0) adds70 [] = Ok (true, f) /\ P_Modify H (Pollard_new 0) adds70 [] = Ok (true, p) /\
  F_Modify H f [(20, true)] [1; 2; 5] = Ok (true, f') /\ P_Modify H p [(20, true)] [1; 2; 5] = Ok (true, p') /\ P_Prove p' [20; 17] = Ok (Some bp) /\
  f_n f = 8 /\ p_posmap p !! 17 = Some 7 /\ p_posmap p' !! 17 = Some 3 /\ m_targets bp = [5; 3].
Proof.
  unfold run70. intros E. apply bind_ok in E as ([b1 f] & E1 & E). apply bind_ok in E as ([b2 p] & E2 & E).
  apply bind_ok in E as ([b3 f'] & E3 & E). apply bind_ok in E as ([b4 p'] & E4 & E). apply bind_ok in E as (bp & E5 & E). cbn [fst snd] in E3, E4, E5, E.
  injection E as -> -> -> -> En Ea Eb Ec. apply fmap_Some in Ec as (bp' & -> & Ec). exists f, p, f', p', bp'.
  split; [exact E1|]. split; [exact E2|]. split; [exact E3|]. split; [exact E4|]. split; [exact E5|]. split; [exact En|]. split; [exact Ea|]. split; [exact Eb|exact (eq_sym Ec)].
Qed.
Lemma adds70_all : Forall (λ a : leaf, a.2 = true) adds70.
Proof. unfold adds70. repeat constructor. Qed.
Lemma ex_full H : exists f p f' p' bp, full_history H f p /\ p_posmap p !! 17 = Some 7 /\
  F_Modify H f [(20, true)] [1; 2; 5] = Ok (true, f') /\ P_Modify H p [(20, true)] [1; 2; 5] = Ok (true, p') /\
  full_history H f' p' /\ p_posmap p' !! 17 = Some 3 /\ P_Prove p' [20; 17] = Ok (Some bp) /\ m_targets bp = [5; 3].
Proof.
  destruct (run70_inv H (run70_ok H)) as (f & p & f' & p' & bp & E1 & E2 & E3 & E4 & E5 & En & Ea & Eb & Ec). exists f, p, f', p', bp.
  assert (Hf : full_history H f p).
  { apply (fh_modify H (RamForest_new 0) (Pollard_new 0) adds70 [] f p (fh_new H)); [exact (eq_refl Lt)|exact adds70_all|exact E1|exact E2]. }
  split; [exact Hf|]. split; [exact Ea|]. split; [exact E3|]. split; [exact E4|]. split; [|split; [exact Eb|split; [exact E5|exact Ec]]].
  apply (fh_modify H f p [(20, true)] [1; 2; 5] f' p' Hf); [rewrite En; exact (eq_refl Lt)|repeat constructor|exact E3|exact E4].
Qed.
