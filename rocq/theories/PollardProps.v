(** * PollardProps: pollards against forests, the property lemmas (proofs) *)
From stdpp Require Import sorting.
From Verif Require Import Base StateModel CodecModel ForestModel PollardModel PosSpec PosFacts PathFacts MerkleSpec CodecSpec CodecFacts TargetFacts ForestFacts
  RowFacts TransformFacts SpecFacts RemoveFacts ForestInv AddFacts ForestSpec HistFacts ProofSpec ProveFacts PollardSpec PollardRep PollardOps PollardAdd PollardRemove PollardRows PollardInit PollardCreate
  PollardVerify PollardVerifyMain PollardPrune PollardHist.
From Coq Require Import ZifyBool ZifyNat ZifyN.
Ltac Zify.zify_post_hook ::= idtac.
Ltac dlia := zify; Z.div_mod_to_equations; lia.

Section Props.
Context (H : hash -> hash -> hash).
Implicit Types (f : forest) (p : pollard) (ls : list hash).

Lemma synced_holds f p ls : synced H f p -> holds_leaves f ls ->
  exists us, reachable H f us /\ size ls < 2 ^ 31 /\ PInv H p ls /\ F_Roots f = spec_roots H ls.
Proof.
  intros Hs Hh. destruct (synced_inv H f p Hs) as (us & ls0 & Hr & Hh0 & Hn & HP).
  assert (ls0 = ls) as -> by (by eapply holds_unique). destruct (reachable_holds H f us ls Hr Hh) as (Hi & _). exists us. split; [done|]. split; [done|]. split; [done|]. by apply inv_roots.
Qed.
Lemma stores_no_collision p ls : stores_only H p ls -> ~ shows_collision H p ls.
Proof.
  intros Hst (R & r & d & a & b & HR & Hd & Ea & Eb & Hne & _). apply Hne. f_equal.
  all: rewrite Nat2N.inj_succ, <- N.add_1_r in Hd; apply node_child in Hd as [Hd0 Hd1].
  - by apply (Hst R r (2 * d) a HR).
  - by apply (Hst R r (2 * d + 1) b HR).
Qed.

(** ** C25 *)
Lemma C25_lem f p : synced H f p -> P_Roots p = Ok (F_Roots f) /\ p_n p = f_n f.
Proof.
  intros Hs. destruct (synced_inv H f p Hs) as (us & ls & Hr & Hh & Hn & HP). destruct (reachable_holds H f us ls Hr Hh) as (Hi & _).
  rewrite (PInv_roots H p ls HP), (inv_roots _ _ _ Hi). split; [done|]. destruct HP as [-> _]. by destruct Hh as [-> _].
Qed.
Lemma verified f p bp ths p1 : synced H f p -> verifies H f p bp ths true p1 -> exists us ls, reachable H f us /\ holds_leaves f ls /\ inv H f ls /\ size ls < 2 ^ 31 /\
  valid_targets (size ls) (m_sorted_targets bp) /\ PReady H p1 ls (m_sorted_targets bp) /\ ths = leaf_at ls <$> m_sorted_targets bp /\
  p_posmap p1 = pm_add (p_posmap p) (zip ths (m_sorted_targets bp)).
Proof.
  intros Hs (Hwf & E & Hnc). destruct (synced_inv H f p Hs) as (us & ls & Hr & Hh & Hn & HP). exists us, ls. split; [done|]. split; [done|].
  destruct (reachable_holds H f us ls Hr Hh) as (Hi & _). split; [done|]. split; [done|]. assert (H62 : 2 ^ 31 <= 2 ^ 62) by done.
  pose proof (Verify_inv H p ls bp ths HP ltac:(lia) Hwf) as HV. rewrite E in HV. cbn [wp] in HV. destruct HV as (_ & _ & _ & Ht & _).
  destruct (Ht eq_refl) as [(Hv & Hlen & Hpm) [Hc|[Hrd Hths]]]; [by apply Hnc in Hc|]. done.
Qed.
Lemma valid_size n ts : valid_targets n ts -> size ts <= n.
Proof.
  intros Hv. pose proof (leaf_row_dead (replicate (N.to_nat n) 0) ts) as Hd. 
  assert (Es : size (replicate (N.to_nat n) 0) = n) by (unfold size; rewrite replicate_length; lia). rewrite Es in Hd.
  pose proof (dead_size (leaf_row (replicate (N.to_nat n) 0) ts)) as Hds. rewrite (Hd Hv), leaf_row_size, Es in Hds. lia.
Qed.
Lemma C25_progress_lem f p bp ths p1 (adds : list leaf) : synced H f p -> verifies H f p bp ths true p1 ->
  f_n f + size adds < 2 ^ 31 + size (m_sorted_targets bp) -> exists p', P_Modify H p1 adds (m_sorted_targets bp) = Ok (true, p').
Proof.
  intros Hs Hv Hb. destruct (verified f p bp ths p1 Hs Hv) as (us & ls & Hr & [Hfn _] & Hi & Hn & Hts & Hrd & _).
  pose proof (valid_size _ _ Hts) as Hsz. assert (H62 : 2 ^ 31 + 2 ^ 31 <= 2 ^ 62) by done. rewrite Hfn in Hb.
  destruct (P_Modify_ok H p1 ls _ adds Hrd ltac:(lia) Hts) as (q & Eq & _). by exists q.
Qed.

(** ** C26 *)
Lemma accepts_inv f us ls p hs bp ths : reachable H f us -> holds_leaves f ls -> size ls < 2 ^ 31 -> PInv H p ls -> F_Prove f hs = Ok (Some bp) ->
  Forall2 (λ t h, F_GetLeaf f t = Ok h) (m_sorted_targets bp) ths ->
  exists p', P_Verify H p bp ths = Ok (true, p') /\ verifies H f p bp ths true p'.
Proof.
  intros Hr Hh Hn HP EF Hths. pose proof Hh as [Hfn Hg]. assert (H62 : 2 ^ 31 <= 2 ^ 62) by done.
  assert (HhR : is_height (f_n f) (NumRows (f_n f))) by (by apply NumRows_height).
  destruct (C06_lem H f us ls hs _ Hr Hh HhR) as [Hbad Hgood].
  destruct (decide (NoDup hs /\ Forall (λ h, h ∈ ls) hs)) as [[Hnd Hin]|Hx].
  2: { rewrite Hbad in EF; [done|]. intros [Hnd Hin]. apply Hx. split; [done|]. by apply Forall_forall. }
  rewrite Forall_forall in Hin. destruct (Hgood Hnd Hin) as (bp' & ps & EF' & HF & Hperm & Hsrt & Hps & Hprf). rewrite EF' in EF. injection EF as ->.
  assert (Hwf : proof_wf bp).
  { unfold F_Prove in EF'. destruct (lookup_all (f_posmap f) hs) as [ts|]; [|done].
    destruct (CheckTargetsSanity (f_n f) (sortN ts)) as [b| | | |]; cbn [bind] in EF'; try done. destruct b; cbn [negb] in EF'; [|done].
    destruct (ProofPositions (f_n f) (sortN ts)) as [pp| | | |]; cbn [bind] in EF'; try done.
    destruct (int_loop (size pp.1)) as [[]| | | |]; cbn [bind] in EF'; try done.
    destruct (mapM_ (F_Read f) pp.1) as [hh| | | |]; cbn [bind] in EF'; try done. by injection EF' as <-. }
  assert (Hts : valid_targets (size ls) (m_sorted_targets bp)).
  { split; [done|]. rewrite Hperm. apply Forall_forall. intros t Ht. apply elem_of_list_lookup in Ht as [k Hk].
    eapply Forall2_lookup_r in HF as (h & _ & Hlt & _); [|exact Hk]. by rewrite <- Hfn. }
  assert (Eths : ths = leaf_at ls <$> m_sorted_targets bp).
  { destruct Hts as [_ Hlt]. clear - Hths Hg Hlt. induction Hths as [|t h ts ths Ht _ IH]; [done|]. apply Forall_cons in Hlt as [Hlt Hlts]. rewrite (Hg t Hlt) in Ht.
    injection Ht as <-. cbn [fmap list_fmap]. f_equal. by apply IH. }
  assert (Hhon : honest (size ls) (m_sorted_targets bp) (nh H (leaf_at ls)) (m_proof bp)).
  { exists ps. rewrite <- Hfn. split; [|done]. rewrite (lists_nodes_ext _ _ (needed (f_n f) (m_targets bp))); [done|]. intros r i. by apply needed_perm. }
  pose proof (Verify_inv H p ls bp ths HP ltac:(lia) Hwf) as HV.
  destruct (P_Verify H p bp ths) as [[b p']| | | |] eqn:E; cbn [wp] in HV; try done.
  2: { by destruct HV as [HV _]. }
  destruct HV as (_ & _ & _ & _ & HV). destruct (HV Hts Hhon Eths) as [-> Hrd]. exists p'. split; [done|].
  assert (Hver : verifies H f p bp ths true p').
  { split; [done|]. split; [done|]. intros ls' Hh'. rewrite <- (holds_unique f ls ls' Hh Hh'). apply stores_no_collision, PInv_stores; [|lia]. by eapply PReady_inv. }
  done.
Qed.
Lemma C26_lem f p hs bp ths : synced H f p -> F_Prove f hs = Ok (Some bp) ->
  Forall2 (λ t h, F_GetLeaf f t = Ok h) (m_sorted_targets bp) ths ->
  exists p', P_Verify H p bp ths = Ok (true, p') /\ verifies H f p bp ths true p' /\ synced H f p'.
Proof.
  intros Hs EF Hths. destruct (synced_inv H f p Hs) as (us & ls & Hr & Hh & Hn & HP).
  destruct (accepts_inv f us ls p hs bp ths Hr Hh Hn HP EF Hths) as (p' & E & Hv). exists p'. split; [done|]. split; [done|]. by eapply sy_verify.
Qed.

(** ** C27, C28 *)
Lemma C27_lem f p bp ths p' ls : synced H f p -> holds_leaves f ls -> proof_wf bp -> P_Verify H p bp ths = Ok (true, p') ->
  shows_collision H p' ls \/ Forall2 (λ t h, t < f_n f /\ F_GetLeaf f t = Ok h) (m_sorted_targets bp) ths.
Proof.
  intros Hs Hh Hwf E. destruct (synced_holds f p ls Hs Hh) as (us & Hr & Hn & HP & _). assert (H62 : 2 ^ 31 <= 2 ^ 62) by done.
  pose proof (Verify_inv H p ls bp ths HP ltac:(lia) Hwf) as HV. rewrite E in HV. cbn [wp] in HV. destruct HV as (_ & _ & _ & Ht & _).
  destruct (Ht eq_refl) as [(Hv & _ & _) [Hc|[_ ->]]]; [by left|right]. destruct Hh as [-> Hg]. destruct Hv as [_ Hlt]. clear - Hlt Hg.
  induction Hlt as [|t ts Hlt _ IH]; [constructor|]. cbn [fmap list_fmap]. constructor; [|done]. split; [done|]. by apply Hg.
Qed.
Lemma C28_lem f p bp ths b p' ls : synced H f p -> holds_leaves f ls -> proof_wf bp -> P_Verify H p bp ths = Ok (b, p') ->
  P_Roots p' = P_Roots p /\ p_n p' = p_n p /\ (stores_only H p' ls \/ (b = true /\ shows_collision H p' ls)).
Proof.
  intros Hs Hh Hwf E. destruct (synced_holds f p ls Hs Hh) as (us & Hr & Hn & HP & _). assert (H62 : 2 ^ 31 <= 2 ^ 62) by done.
  pose proof (Verify_inv H p ls bp ths HP ltac:(lia) Hwf) as HV. rewrite E in HV. cbn [wp] in HV. destruct HV as (En & Er & Hf & Ht & _).
  split; [done|]. split; [done|]. destruct b.
  - destruct (Ht eq_refl) as [_ [Hc|[Hrd _]]]; [by right|left]. apply PInv_stores; [|lia]. by eapply PReady_inv.
  - left. apply PInv_stores; [|lia]. by apply Hf.
Qed.
Lemma C28_total_lem f p bp ths ls : synced H f p -> holds_leaves f ls -> proof_wf bp ->
  (forall R r i, is_height (size ls) R -> node (size ls) r i -> P_Read p (enc R r i) <> Ok (Some zero_hash)) ->
  exists b p', P_Verify H p bp ths = Ok (b, p').
Proof.
  intros Hs Hh Hwf Hz. destruct (synced_holds f p ls Hs Hh) as (us & Hr & Hn & HP & _). assert (H62 : 2 ^ 31 <= 2 ^ 62) by done.
  pose proof (Verify_inv H p ls bp ths HP ltac:(lia) Hwf) as HV.
  destruct (P_Verify H p bp ths) as [[b p']| | | |] eqn:E; cbn [wp] in HV; try done; [by eauto|].
  destruct HV as [_ (r & i & Hnd & Er & _)]. apply Hz in Er; [done|by apply NumRows_height|]. by eapply needed_node.
Qed.
Lemma C29_pos_lem f p bp ths p' ls : synced H f p -> holds_leaves f ls -> proof_wf bp -> P_Verify H p bp ths = Ok (false, p') ->
  p_posmap p' = p_posmap p /\ P_Roots p' = P_Roots p /\ p_n p' = p_n p /\
  forall R r i, is_height (size ls) R -> node (size ls) r i -> P_Read p' (enc R r i) = P_Read p (enc R r i).
Proof.
  intros Hs Hh Hwf E. destruct (synced_holds f p ls Hs Hh) as (us & Hr & Hn & HP & _). assert (H62 : 2 ^ 31 <= 2 ^ 62) by done.
  pose proof (Verify_inv H p ls bp ths HP ltac:(lia) Hwf) as HV. rewrite E in HV. cbn [wp] in HV. destruct HV as (En & Er & Hf & _ & _).
  destruct (Hf eq_refl) as (Hpm & HP' & Hrd). split; [done|]. split; [done|]. split; [done|]. intros R r i HhR Hi. apply NumRows_height in HhR as <-.
  rewrite <- (N2Nat.id r) in *. by apply Hrd.
Qed.

(** ** C31, C32 *)
Lemma C31_lem f p : synced H f p -> exists p', P_Prune p = Ok p' /\ P_Roots p' = Ok (F_Roots f) /\ p_n p' = f_n f /\ P_CountNodes p' = size (F_Roots f) /\ P_NumCachedLeaves p' = 0 /\
  (forall R r i, is_height (f_n f) R -> node (f_n f) r i -> ~ is_root (f_n f) r i -> P_Read p' (enc R r i) = Ok None) /\ synced H f p'.
Proof.
  intros Hs. destruct (synced_inv H f p Hs) as (us & ls & Hr & Hh & Hn & HP). pose proof Hh as [Hfn _]. assert (H62 : 2 ^ 31 <= 2 ^ 62) by done.
  destruct (reachable_holds H f us ls Hr Hh) as (Hi & _).
  destruct (PInv_prune H p ls HP ltac:(lia)) as (p' & E & HP' & Hc & Hz & Hrd). assert (Hs' : synced H f p') by (by eapply sy_prune).
  exists p'. split; [done|]. destruct (C25_lem f p' Hs') as [-> ->]. split; [done|]. split; [done|]. split; [|split; [done|split; [|done]]].
  - rewrite Hc, (inv_roots _ _ _ Hi). unfold size at 1 3, spec_roots. by rewrite fmap_length.
  - intros R r i HhR Hx Hnr. rewrite Hfn in *. rewrite <- (N2Nat.id r) in *. by apply Hrd.
Qed.
Lemma C32_lem f us : reachable H f us -> exists p, Pollard_restore (F_Roots f) (f_n f) = Ok p /\ P_Roots p = Ok (F_Roots f) /\ p_n p = f_n f /\ synced H f p.
Proof.
  intros Hr. destruct (C01_lem H f us Hr) as (ls & Hh & _). destruct (reachable_holds H f us ls Hr Hh) as (Hi & Hn & _). assert (H62 : 2 ^ 31 <= 2 ^ 62) by done.
  destruct (PInv_restore H ls ltac:(lia)) as (q & Eq & HP). pose proof Hh as [Hfn _]. rewrite <- Hfn, <- (inv_roots _ _ _ Hi) in Eq.
  assert (Hs : synced H f q) by (by eapply sy_restore). exists q. split; [done|]. destruct (C25_lem f q Hs) as [-> ->]. done.
Qed.
Lemma C32_pollard_lem f p : synced H f p -> exists rs q, P_Roots p = Ok rs /\ Pollard_restore rs (p_n p) = Ok q /\ synced H f q.
Proof.
  intros Hs. destruct (synced_inv H f p Hs) as (us & ls & Hr & _). destruct (C32_lem f us Hr) as (q & E & _ & _ & Hq). destruct (C25_lem f p Hs) as [-> ->].
  by exists (F_Roots f), q.
Qed.

(** ** C30 *)
Lemma pm_add_notin (m : gmap N N) (a b : list N) h : h ∉ a -> pm_add m (zip a b) !! h = m !! h.
Proof.
  revert m b. induction a as [|x a IH]; intros m [|y b] Hh; try done. apply not_elem_of_cons in Hh as [Hne Hh].
  change (zip (x :: a) (y :: b)) with ((x, y) :: zip a b). unfold pm_add. cbn [foldl fst snd]. change (pm_add (<[x:=y]> m) (zip a b) !! h = m !! h). rewrite IH by done.
  by rewrite lookup_insert_ne.
Qed.
Lemma pm_add_lookup (m : gmap N N) (a b : list N) k h t : NoDup a -> a !! k = Some h -> b !! k = Some t -> pm_add m (zip a b) !! h = Some t.
Proof.
  intros Hnd. revert m b k. induction Hnd as [|x a Hx Hnd IH]; intros m [|y b] k; [done..|]. 
  change (zip (x :: a) (y :: b)) with ((x, y) :: zip a b). unfold pm_add. cbn [foldl fst snd]. destruct k as [|k]; cbn [lookup list_lookup].
  - intros [= ->] [= ->]. change (pm_add (<[h:=t]> m) (zip a b) !! h = Some t). rewrite pm_add_notin by done. by rewrite lookup_insert.
  - intros Ha Hb. by eapply IH.
Qed.
Lemma lookup_all_eq (m m' : gmap N N) hs : (forall h, h ∈ hs -> m !! h = m' !! h) -> lookup_all m hs = lookup_all m' hs.
Proof.
  induction hs as [|h hs IH]; intros Heq; [done|]. cbn [lookup_all]. rewrite (Heq h ltac:(left)). destruct (m' !! h); [|done]. rewrite IH; [done|]. intros x Hx. apply Heq. by right.
Qed.
Lemma computed_sub n ts ts' r i : (forall t, t ∈ ts' -> t ∈ ts) -> computed n ts' r i -> computed n ts r i.
Proof. intros Hsub (Hi & t & Ht & E). split; [done|]. exists t. split; [by apply Hsub|done]. Qed.

Lemma C30_pos_lem f p bp ths p' hs : synced H f p -> verifies H f p bp ths true p' -> (forall h, h ∈ hs -> h ∈ ths) -> P_Prove p' hs = F_Prove f hs.
Proof.
  intros Hs Hv Hsub. destruct (verified f p bp ths p' Hs Hv) as (us & ls & Hr & Hh & Hi & Hn & Hts & Hrd & Hths & Hpm).
  pose proof Hh as [Hfn Hg]. assert (H62 : 2 ^ 31 <= 2 ^ 62) by done. remember (m_sorted_targets bp) as ts eqn:Ets. clear Ets.
  assert (Hpmf : forall h q, f_posmap f !! h = Some q <-> q < f_n f /\ F_GetLeaf f q = Ok h) by (intros; by apply (C07_lem H f us)).
  assert (Hlt : forall t, t ∈ ts -> t < size ls) by (apply Forall_forall, Hts).
  assert (Hfl : forall t, t ∈ ts -> f_posmap f !! leaf_at ls t = Some t).
  { intros t Ht. apply Hpmf. rewrite Hfn. split; [by apply Hlt|]. by apply Hg, Hlt. }
  assert (Hnd : NoDup ths).
  { rewrite Hths. apply NoDup_fmap_2_strong; [|apply sorted_lt_NoDup, Hts]. intros x y Hx Hy E. apply Hfl in Hx, Hy. rewrite E in Hx. congruence. }
  assert (Hlook : forall h, h ∈ ths -> exists t, t ∈ ts /\ h = leaf_at ls t /\ p_posmap p' !! h = Some t).
  { intros h [k Hk]%elem_of_list_lookup. pose proof Hk as Hk'. rewrite Hths, list_lookup_fmap in Hk'. apply fmap_Some in Hk' as (t & Ht & ->). exists t.
    split; [by eapply elem_of_list_lookup_2|]. split; [done|]. rewrite Hpm. by eapply pm_add_lookup. }
  unfold P_Prove, F_Prove. rewrite (lookup_all_eq (p_posmap p') (f_posmap f)).
  2: { intros h Hx. apply Hsub, Hlook in Hx as (t & Ht & -> & ->). by rewrite Hfl. }
  destruct (lookup_all (f_posmap f) hs) as [us'|] eqn:El; [|done]. apply lookup_all_some in El.
  assert (Hin : forall t, t ∈ sortN us' -> t ∈ ts).
  { intros t Ht. rewrite sortN_perm in Ht. apply elem_of_list_lookup in Ht as [k Hk]. eapply Forall2_lookup_r in El as (h & Hhk & E); [|exact Hk].
    apply elem_of_list_lookup_2 in Hhk. apply Hsub, Hlook in Hhk as (t' & Ht' & -> & _). rewrite (Hfl _ Ht') in E. by injection E as <-. }
  destruct Hrd as (Hpn & L & M & HR & Hag & Hready). rewrite Hpn, Hfn.
  destruct (CheckTargetsSanity_iff (size ls) (sortN us')) as (b & -> & Hb). cbn [bind]. destruct b; [|done]. cbn [negb].
  destruct (ProofPositions_ok (size ls) ltac:(lia) (sortN us')) as (P & C & -> & [_ HP] & _); [by apply Hb|]. cbn [bind fst].
  assert (Hread : forall q, q ∈ P -> exists h, P_Read p' q = Ok (Some h) /\ F_Read f q = Ok h).
  { intros q (r & i & Hsl & -> & Hx)%HP. pose proof (needed_node _ _ _ _ Hx) as Hnode. exists (nh H (leaf_at ls) (N.to_nat r) i).
    split; [|by apply (inv_read H f ls r i Hi ltac:(lia))]. rewrite <- (N2Nat.id r) in *.
    assert (HL : is_Some (L (N.to_nat r) i)).
    { apply Hready. destruct Hx as (Hc & Hnr & _). apply (computed_sub _ ts) in Hc; [|done].
      destruct (decide (i ∈ crow (size ls) ts (N.to_nat r))) as [Hci|Hci]; rewrite crow_elem in Hci; [by left|by right]. }
    destruct HL as [l El']. rewrite (P_Read_ok (size ls) ltac:(lia) p' L M _ i Hpn HR Hnode), El'. cbn [fmap option_fmap option_map]. rewrite !Nat2N.id. do 2 f_equal.
    apply Hag; [by apply trees_under|done]. }
  clear HP. assert (E : exists hh, p_read_hashes p' P = Ok (Some hh) /\ mapM_ (F_Read f) P = Ok hh).
  { induction P as [|q P IH]; [by exists []|]. destruct IH as (hh & E1 & E2); [intros; apply Hread; by right|]. destruct (Hread q ltac:(left)) as (h & F1 & F2).
    exists (h :: hh). cbn [p_read_hashes mapM_]. rewrite F1, F2. cbn [bind]. by rewrite E1, E2. }
  destruct E as (hh & -> & ->). done.
Qed.
End Props.
