(** * PlacePollard: the positions the roots of a pollard carry (proofs) *)
From stdpp Require Import sorting.
From Verif Require Import Base StateModel CodecModel ForestModel PollardModel PosSpec PosFacts PathFacts MerkleSpec TargetFacts ForestFacts
  RowFacts TransformFacts SpecFacts RemoveFacts ForestInv AddFacts ForestSpec HistFacts PosmapFacts CheckedModel CheckedFacts
  PollardRep PollardInit PollardAdd PollardRemove PollardSpec PollardPrune PollardHist PlaceSpec PlaceFacts.
From Coq Require Import ZifyBool ZifyNat ZifyN.
Ltac Zify.zify_post_hook ::= idtac.

Section Pollard.
Context (H : hash -> hash -> hash).

(** ** Additions *)
Lemma P_MergeRoot_pos p pp ph p' : P_MergeRoot p pp ph = Ok p' -> p_n p' = p_n p /\ exists rs a b x, p_roots p = rs ++ [a; b] /\ p_roots p' = rs ++ [PRoot x pp vflag0].
Proof.
  unfold P_MergeRoot. intros E. apply bind_ok in E as (rt & _ & E). apply bind_ok in E as (r1 & E1 & E). apply bind_ok in E as (lt & _ & E). apply bind_ok in E as (r2 & E2 & E).
  apply bind_ok in E as (h1 & _ & E). unfold alloc in E. apply bind_ok in E as (il & _ & E). apply bind_ok in E as (ir & _ & E). apply bind_ok in E as (h2 & _ & E).
  apply Ok_inv in E as <-. split; [done|].
  apply vec_pop_inv in E1 as [y E1]. apply vec_pop_inv in E2 as [x E2]. eexists r2, x, y, _. split; [|done]. by rewrite E1, E2, <- app_assoc.
Qed.
Lemma P_add_merge_pos n fuel : forall p row root h np p' ps, P_add_merge H fuel p n row root h np = Ok p' -> P_root_positions p = ps ++ [np] ->
  p_n p' = p_n p /\ merged n row ps np (P_root_positions p').
Proof.
  induction fuel as [|fuel IH]; intros p row root h np p' ps E Hps; cbn [P_add_merge] in E; apply bind_ok in E as (b & Eb%(HasRoot_inv H) & E).
  - destruct b; [done|]. apply Ok_inv in E as <-. split; [done|]. rewrite Hps. by constructor.
  - destruct b.
    + apply bind_ok in E as (rnd & _ & E). apply bind_ok in E as (rh & _ & E). apply bind_ok in E as (pp & Ep & E). apply bind_ok in E as (p1 & E1 & E). apply bind_ok in E as (bk & Ebk & E). apply bind_ok in E as (bh & _ & E).
      destruct (P_MergeRoot_pos _ _ _ _ E1) as (Hn1 & rs & x & y & h' & Hr & Hr1). rewrite Hr1, vec_back_snoc in Ebk. apply Ok_inv in Ebk as <-. cbn [pr_pos] in E.
      unfold P_root_positions in Hps. rewrite Hr in Hps. change [x; y] with ([x] ++ [y]) in Hps. rewrite app_assoc, !fmap_app in Hps. cbn [fmap list_fmap] in Hps. apply app_inj_2 in Hps as [<- _]; [|done].
      destruct (IH p1 (row + 1) _ _ pp p' (pr_pos <$> rs) E) as [Hn' Hm].
      { unfold P_root_positions. by rewrite Hr1, fmap_app. }
      split; [congruence|]. by econstructor.
    + apply Ok_inv in E as <-. split; [done|]. rewrite Hps. by constructor.
Qed.
Lemma P_add_leaf_pos p l p' : P_add_leaf H p l = Ok p' -> p_n p < 2 ^ 62 -> p_n p' = p_n p + 1 /\ stepped (p_n p) (P_root_positions p) (P_root_positions p').
Proof.
  intros E Hn. unfold P_add_leaf in E. apply bind_ok in E as (f1 & E1 & E). apply bind_ok in E as (f2 & E2 & E).
  assert (H1 : p_n f1 = p_n p /\ P_root_positions f1 = P_root_positions p ++ [p_n p]).
  { unfold P_NewLeaf in E1. unfold alloc in E1. apply Ok_inv in E1 as <-. destruct (l.2); (split; [done|]); unfold P_root_positions; cbn [p_roots p_set_roots p_set_posmap]; by rewrite fmap_app. }
  destruct H1 as [Hn1 Hp1]. destruct (P_add_merge_pos _ _ _ _ _ _ _ _ _ E2 Hp1) as [Hn2 Hm]. rewrite Hn1 in Hn2. cbn [p_n p_set_n] in E. rewrite Hn2, add64_small in E by (assert (2 ^ 62 < two64) by done; lia).
  destruct ((NumRows (p_n p) =? 0) || (NumRows (p_n p) =? NumRows (p_n p + 1))) eqn:Ec.
  - apply Ok_inv in E as <-. split; [done|]. exists (P_root_positions f2). split; [done|]. left. done.
  - apply bind_ok in E as (ua & Ea & E). apply bind_ok in E as (p1 & Ep1 & E). apply bind_ok in E as (p0 & Ep0 & E). cbn [p_roots p_set_n] in *.
    destruct (p_roots f2) as [|a [|b rest]] eqn:Er; [discriminate Ea|discriminate Ea|].
    apply bind_ok in E as (r1 & G1 & E). apply bind_ok in E as (rs1 & G2 & E). apply bind_ok in E as (r0 & G3 & E). apply bind_ok in E as (rs2 & G4 & E).
    apply Ok_inv in E as <-. cbn [p_n p_set_roots p_set_n]. split; [done|]. exists (P_root_positions f2). split; [done|]. right. split; [done|].
    exists p0, p1, (pr_pos a), (pr_pos b), (pr_pos <$> rest). split; [done|]. split; [done|]. unfold P_root_positions. rewrite Er. split; [done|]. cbn [p_roots p_set_roots].
    unfold vec_set in G2, G4. destruct (1 <? size (a :: b :: rest)); [|discriminate G2]. apply Ok_inv in G2 as <-. destruct (0 <? _); [|discriminate G4]. apply Ok_inv in G4 as <-. done.
Qed.
Lemma P_roots_len p ls M : PMark H p ls M -> length (P_root_positions p) = length (trees (size ls)).
Proof. intros [_ (L & HR & _)]. pose proof (rp_roots _ _ _ _ HR) as Hr. apply (f_equal length) in Hr. unfold P_root_positions. rewrite !fmap_length in *. done. Qed.
Lemma P_Add_pos (adds : list leaf) : forall p ls M p', PMark H p ls M -> size ls + size adds <= 2 ^ 62 -> P_Add H p adds = Ok p' ->
  (good (p_n p) (P_root_positions p) -> good (p_n p') (P_root_positions p')) /\ (NumRows (p_n p) <> NumRows (p_n p') -> good (p_n p') (P_root_positions p')).
Proof.
  unfold P_Add. induction adds as [|[h m] hs IH]; intros p ls M p' Hc Hn E.
  - cbn [foldM] in E. apply Ok_inv in E as <-. done.
  - cbn [foldM] in E. apply bind_ok in E as (p1 & E1 & E). unfold leaf in *. assert (Es : size ((h, m) :: hs) = size hs + 1) by (unfold size; cbn [length]; lia). rewrite Es in *.
    destruct (P_add_leaf_mark H p ls M h m Hc ltac:(lia)) as (p1' & E1' & Hc1 & _). unfold leaf in *. rewrite E1 in E1'. apply Ok_inv in E1' as <-.
    assert (El : size (ls ++ [h]) = size ls + 1) by (unfold size; rewrite app_length; cbn [length]; lia).
    destruct (IH p1 (ls ++ [h]) _ p' Hc1 ltac:(lia) E) as [I1 I2]. pose proof (proj1 Hc) as Hpn.
    destruct (P_add_leaf_pos p _ p1 E1 ltac:(lia)) as [Hn1 Hst].
    pose proof (P_roots_len _ _ _ Hc1) as Hl. rewrite El, <- Hpn in Hl.
    rewrite Hn1 in I1, I2. split.
    + intros Hg. apply I1. by eapply good_step; [lia| | |].
    + intros Hne. destruct (N.eq_dec (NumRows (p_n p)) (NumRows (p_n p + 1))) as [He|He]; [apply I2; by rewrite <- He|]. apply I1. by eapply good_grow; [lia| | |].
Qed.

(** ** Deletions *)
Lemma P_ReHash_n p x p' : P_ReHash H p x = Ok p' -> p_n p' = p_n p.
Proof.
  unfold P_ReHash. intros E. apply bind_ok in E as (s & _ & E). destruct (_ || _); [by apply Ok_inv in E as <-|]. do 4 apply bind_ok in E as (? & _ & E). by apply Ok_inv in E as <-.
Qed.
Lemma P_rehash_dirt_n st dirt : forall p acc x, P_rehash_dirt H p st dirt acc = Ok x -> p_n x.1 = p_n p.
Proof.
  induction dirt as [|d dirt IH]; intros p acc x E; cbn [P_rehash_dirt] in E; [by apply Ok_inv in E as <-|]. destruct d as [|y d]; [done|].
  apply bind_ok in E as (p1 & E1 & E). apply bind_ok in E as (pp & _ & E). apply bind_ok in E as (acc' & _ & E). rewrite (IH _ _ _ E). by eapply P_ReHash_n.
Qed.
Lemma P_update_n p a b p' : P_UpdatePositionMapForSubtreeSwap p a b = Ok p' -> p_n p' = p_n p.
Proof.
  unfold P_UpdatePositionMapForSubtreeSwap, P_UpdatePositionMapForRange. intros E. do 4 apply bind_ok in E as (? & _ & E).
  destruct (_ =? 0); [by apply Ok_inv in E as <-|]. do 2 apply bind_ok in E as (? & _ & E). by apply Ok_inv in E as <-.
Qed.
Lemma hook_n p rp s pos x : hook_in_sibling p rp s pos = Ok x -> p_n x.1 = p_n p.
Proof.
  unfold hook_in_sibling. intros E. destruct s; [by apply Ok_inv in E as <-|]. unfold alloc in E. destruct rp; [done|]. apply bind_ok in E as (si & _ & E). by apply Ok_inv in E as <-.
Qed.
Lemma P_swap_n p a b x : P_SwapSubTrees p a b = Ok x -> p_n x.1 = p_n p.
Proof.
  unfold P_SwapSubTrees. intros E. apply bind_ok in E as ([[nf sf] rp] & _ & E). apply bind_ok in E as ([p1 s1] & E1 & E). apply hook_n in E1. cbn [fst] in E1.
  apply bind_ok in E as ([[[p2 nt] st] rp'] & E2 & E). do 2 apply bind_ok in E as (? & _ & E). apply Ok_inv in E as <-. cbn [fst p_n p_set_heap].
  destruct (Sibling a =? b); [apply Ok_inv in E2; by injection E2 as <- _ _ _|]. apply bind_ok in E2 as ([[nt' st'] rp2] & _ & E2). apply bind_ok in E2 as ([q s] & E3 & E2).
  apply hook_n in E3. apply Ok_inv in E2. injection E2 as <- _ _ _. cbn [fst] in *. congruence.
Qed.
Lemma P_do_swaps_n ss : forall p x, P_do_swaps p ss = Ok x -> p_n x.1 = p_n p.
Proof.
  induction ss as [|s ss IH]; intros p x E; cbn [P_do_swaps] in E; [by apply Ok_inv in E as <-|].
  apply bind_ok in E as (p1 & E1 & E). apply bind_ok in E as (pd & E2 & E). apply bind_ok in E as (r & E3 & E). apply Ok_inv in E as <-. cbn [fst].
  rewrite (IH _ _ E3), (P_swap_n _ _ _ _ E2). by eapply P_update_n.
Qed.
Lemma P_remove_rows_n k : forall row st swaps p dirt x, P_remove_rows H k row st swaps p dirt = Ok x -> p_n x.1 = p_n p.
Proof.
  induction k as [|k IH]; intros row st swaps p dirt x E; cbn [P_remove_rows] in E; [by apply Ok_inv in E as <-|].
  apply bind_ok in E as (fd & E1 & E). apply bind_ok in E as (r & E2 & E). rewrite (IH _ _ _ _ _ _ E), (P_rehash_dirt_n _ _ _ _ _ E2).
  destruct (row <? size swaps); [|by apply Ok_inv in E1 as <-]. apply bind_ok in E1 as (ss & _ & E1). apply bind_ok in E1 as (r' & E3 & E1). apply Ok_inv in E1 as <-. cbn [fst].
  by apply P_do_swaps_n in E3.
Qed.
Lemma p_select_roots_pos ps : forall p acc x, p_select_roots p ps acc = Ok x -> pr_pos <$> x.2 = rev ps ++ (pr_pos <$> acc).
Proof.
  induction ps as [|pos ps IH]; intros p acc x E; cbn [p_select_roots] in E; [by apply Ok_inv in E as <-|].
  apply bind_ok in E as (r & E1 & E). rewrite (IH _ _ _ E). cbn [rev]. rewrite <- app_assoc, fmap_cons. do 2 f_equal.
  unfold p_select_root in E1. apply bind_ok in E1 as ([[nd sb] rp] & _ & E1). apply bind_ok in E1 as (i & _ & E1). change ([pos] ++ (pr_pos <$> acc)) with (pos :: (pr_pos <$> acc)). f_equal.
  destruct sb; [apply bind_ok in E1 as (s & _ & E1); apply bind_ok in E1 as (i1 & _ & E1)|apply bind_ok in E1 as (h1 & _ & E1)]; by apply Ok_inv in E1 as <-.
Qed.
Lemma P_Remove_pos p ts p' : P_Remove H p ts = Ok (true, p') -> p_n p <= 2 ^ 62 -> size ts <= p_n p -> ts <> [] ->
  p_n p' = p_n p - size ts /\ P_root_positions p' = place (NumRows (p_n p)) (p_n p - size ts).
Proof.
  intros E Hn Hs Hne. unfold P_Remove in E. destruct ts as [|t0 ts0] eqn:Ets; [done|]. rewrite <- Ets in *. clear Ets t0 ts0.
  apply bind_ok in E as (sane & _ & E). destruct sane; [|done]. cbn [negb] in E. apply bind_ok in E as (sws & _ & E). apply bind_ok in E as (fd & E1 & E). apply P_remove_rows_n in E1.
  apply bind_ok in E as (u & _ & E). apply bind_ok in E as (f1 & E2 & E). apply Ok_inv in E. injection E as <-. rewrite E1, sub64_small in E2 |- * by (assert (2 ^ 62 < two64) by done; lia).
  split; [done|]. unfold P_FinalizeRemove in E2. apply bind_ok in E2 as (m & _ & E2). rewrite E1 in E2.
  remember (p_n p) as n eqn:En. assert (Hpw : n - size ts < 2 ^ (NumRows n + 1)) by (rewrite pow_S; pose proof (NumRows_bound n); pose proof (pow_pos (NumRows n)); lia).
  rewrite RootPositionsFor_ok in E2 by done. cbn [bind] in E2. rewrite root_rows_trim in E2 by (pose proof (NumRows_mono (n - size ts) n ltac:(lia)); lia).
  apply bind_ok in E2 as (rs & E3 & E2). apply Ok_inv in E2 as <-. unfold P_root_positions. cbn [p_roots p_set_n p_set_roots]. fold (trees (n - size ts)) in E3. fold (place (NumRows n) (n - size ts)) in E3.
  rewrite (p_select_roots_pos _ _ _ _ E3), rev_involutive. by rewrite app_nil_r.
Qed.
Lemma P_Modify_pos f p bp ths p1 (adds : list leaf) p' : synced H f p -> verifies H f p bp ths true p1 -> f_n f + size adds < 2 ^ 31 + size (m_sorted_targets bp) ->
  P_Modify H p1 adds (m_sorted_targets bp) = Ok (true, p') -> let ts := m_sorted_targets bp in
  (ts <> [] -> adds = [] -> P_root_positions p' = place (NumRows (p_n p1)) (p_n p')) /\
  ((ts = [] -> good (p_n p1) (P_root_positions p1)) -> NumRows (p_n p1 - size ts) = NumRows (p_n p1) \/ p_n p1 <= size ts + 1 -> good (p_n p') (P_root_positions p')) /\
  (NumRows (p_n p1 - size ts) <> NumRows (p_n p') -> good (p_n p') (P_root_positions p')).
Proof.
  intros Hs (Hwf & E & Hnc) Hb EP ts. destruct (synced_inv H f p Hs) as (us & ls & Hr & Hh & Hn & HP). pose proof Hh as [Hfn _]. rewrite Hfn in Hb. assert (H62 : 2 ^ 31 <= 2 ^ 62) by done.
  pose proof (Verify_inv H p ls bp ths HP ltac:(lia) Hwf) as HV. rewrite E in HV. cbn [wp] in HV. destruct HV as (_ & _ & _ & Ht & _).
  destruct (Ht eq_refl) as [(Hv & _ & _) [Hc|[Hrd _]]]; [by apply Hnc in Hc|]. fold ts in Hb, EP, Hv, Hrd. clear Ht. clearbody ts.
  assert (Hsz : size ts <= size ls).
  { pose proof (leaf_row_dead ls ts Hv) as Hd. rewrite <- Hd. pose proof (dead_size (leaf_row ls ts)) as Hds. rewrite leaf_row_size in Hds. lia. }
  apply PReady_mark in Hrd as (M & Hrd). pose proof (proj1 Hrd) as Hpn.
  unfold P_Modify in EP. apply bind_ok in EP as ([b q] & E1 & EP). cbn [fst snd] in EP. destruct b; [|discriminate EP]. cbn [negb] in EP. apply bind_ok in EP as (q' & E2 & EP).
  apply Ok_inv in EP. injection EP as ->.
  assert (Hq : (exists ls1 M1, PMark H q ls1 M1 /\ size ls1 = size ls - size ts) /\ ((ts = [] /\ q = p1) \/ (ts <> [] /\ P_root_positions q = place (NumRows (p_n p1)) (p_n q)))).
  { destruct (decide (ts = [])) as [Ets|Hne].
    - rewrite Ets in E1. cbn [P_Remove] in E1. apply Ok_inv in E1. injection E1 as <-. split; [|by left]. exists ls, M. rewrite Ets. change (size (@nil N)) with 0. split; [|lia].
      destruct Hrd as [Hrn (L & HR & Ha & _)]. split; [done|]. by exists L.
    - destruct (P_Remove_mark H p1 ls ts M (PReadyM_stock _ _ _ _ _ Hrd) ltac:(lia) Hv Hne) as (q0 & M' & E0 & HM & Hsr & _). rewrite E1 in E0. apply Ok_inv in E0. injection E0 as <-.
      split; [by exists (spec_remove ls ts), M'|]. right. split; [done|]. destruct (P_Remove_pos p1 ts q E1) as [G1 G2]; [lia|lia|done|]. by rewrite G1, G2. }
  destruct Hq as [(ls1 & M1 & HM & Hs1) Hp1]. pose proof (proj1 HM) as Hqn.
  unfold leaf in *. destruct (P_Add_pos adds q ls1 M1 p' HM ltac:(unfold leaf; lia) E2) as [Ha Hg].
  assert (E0 : p_n q = p_n p1 - size ts) by lia.
  split; [|split].
  - intros Hne ->. destruct Hp1 as [[? _]|[_ Hp1]]; [done|]. cbn in E2. apply Ok_inv in E2 as <-. done.
  - intros Hgf Hc. apply Ha. destruct Hp1 as [[-> ->]|[_ Hp1]]; [by apply Hgf|]. left. rewrite Hp1. destruct Hc as [Hc|Hc]; [by rewrite E0, Hc|]. apply (place_small H). lia.
  - intros Hc. apply Hg. by rewrite E0.
Qed.

(** ** Verification *)
Definition tabpos (n : N) (t : wtab) : Prop := exists ext, w_pos <$> t = place (NumRows n) n ++ ext.
Lemma vec_get_inv {A} (l : list A) i x : vec_get l i = Ok x -> l !! N.to_nat i = Some x.
Proof. unfold vec_get. destruct (l !! N.to_nat i); [|done]. intros E. by apply Ok_inv in E as <-. Qed.
Lemma vec_set_inv {A} (l l' : list A) i x : vec_set l i x = Ok l' -> l' = <[N.to_nat i := x]> l.
Proof. unfold vec_set. destruct (i <? size l); [|done]. intros E. by apply Ok_inv in E as <-. Qed.
Lemma tab_set n t x w w' t' : tabpos n t -> vec_get t x = Ok w -> w_pos w' = w_pos w -> vec_set t x w' = Ok t' -> tabpos n t'.
Proof.
  intros [ext Ht] Hx%vec_get_inv Hw ->%vec_set_inv. exists ext. rewrite <- Ht, list_fmap_insert, Hw. apply list_insert_id. by rewrite list_lookup_fmap, Hx.
Qed.
Lemma mark_valid_tab n t x t' : tabpos n t -> mark_valid t x = Ok t' -> tabpos n t'.
Proof. intros Ht E. unfold mark_valid in E. apply bind_ok in E as (w & Ew & E). eapply (tab_set n t x w _ t' Ht Ew); [|exact E]; done. Qed.
Lemma create_node_tab n m c x r : tabpos m (c_t c) -> create_node n c x = Ok r -> tabpos m (c_t r.1).
Proof.
  intros Ht E. unfold create_node in E. apply bind_ok in E as (w & Ew & E). apply bind_ok in E as (u1 & _ & E). apply bind_ok in E as (u2 & _ & E).
  destruct (hd_is (c_computed c) (w_pos w)).
  - apply bind_ok in E as (t1 & E1 & E). assert (Ht1 : tabpos m t1) by (eapply (tab_set m (c_t c) x w _ t1 Ht Ew); [|exact E1]; done). destruct (w_pos w <? n); [by apply Ok_inv in E as <-|].
    apply bind_ok in E as ([[[[[p2 t2] lc] rc] rl] rr] & E2 & E). apply Ok_inv in E as <-. cbn [fst c_t]. unfold P_InitChildren in E2.
    apply bind_ok in E2 as (w2 & _ & E2). apply bind_ok in E2 as (s0 & _ & E2). apply bind_ok in E2 as (s1 & _ & E2). apply bind_ok in E2 as (s2 & _ & E2).
    apply bind_ok in E2 as (lp & _ & E2). apply bind_ok in E2 as (rp & _ & E2). apply Ok_inv in E2. injection E2 as _ <- _ _ _ _.
    destruct Ht1 as [ext Ht1]. exists (ext ++ [lp; rp]). rewrite fmap_app, Ht1, <- app_assoc. done.
  - apply bind_ok in E as (t1 & E1 & E). assert (Ht1 : tabpos m t1) by (eapply (tab_set m (c_t c) x w _ t1 Ht Ew); [|exact E1]; done). destruct (v_cached (w_flag w)).
    + apply bind_ok in E as (i & _ & E). destruct (i_hash i.2 =? _); [destruct (c_hashes c); [done|]|]; by apply Ok_inv in E as <-.
    + destruct (c_hashes c); [by apply Ok_inv in E as <-|]. apply bind_ok in E as (i & _ & E). by apply Ok_inv in E as <-.
Qed.
Lemma create_row_tab n m xs : forall c next r, tabpos m (c_t c) -> create_row n c xs next = Ok r -> tabpos m (c_t r.1).
Proof.
  induction xs as [|x xs IH]; intros c next r Ht E; cbn [create_row] in E; [by apply Ok_inv in E as <-|].
  apply bind_ok in E as (r1 & E1 & E). pose proof (create_node_tab _ _ _ _ _ Ht E1) as Ht1. destruct (r1.2); [by eapply IH|by apply Ok_inv in E as <-].
Qed.
Lemma half_root n r tr : r < tr -> 2 * (n / 2 ^ (r + 1)) / 2 ^ (tr - r) = n / 2 ^ tr.
Proof.
  intros Hlt. remember (tr - r - 1) as d eqn:Ed. assert (tr = r + 1 + d) as -> by lia. clear Ed. replace (r + 1 + d - r) with (N.succ d) by lia.
  rewrite N.pow_succ_r'. pose proof (pow_pos d). pose proof (pow_pos (r + 1)). rewrite N.div_mul_cancel_l by lia. rewrite N.div_div by lia. by rewrite <- N.pow_add_r.
Qed.
Lemma RootIndex_root n r rp idx : n <= 2 ^ 62 -> HasRoot n r = Ok true -> RootPosition n r = Ok rp -> RootIndex n rp = Ok idx -> place (NumRows n) n !! N.to_nat idx = Some rp.
Proof.
  intros Hn Hb%(HasRoot_inv H) Ep Ei. pose proof (testbit_le_rows n r Hb) as Hr. rewrite RootPosition_ok in Ep by done. apply Ok_inv in Ep as <-.
  remember (2 * (n / 2 ^ (r + 1))) as i eqn:Ei0.
  assert (Hir : is_root n r i) by (apply is_root_iff; done).
  assert (Hf : is_forest n (trees n)) by apply forest_root_rows.
  assert (Hin : (r, i) ∈ trees n). { destruct (C20_roots_lem n (NumRows n) _ Hn (proj2 (NumRows_height _ _) eq_refl) Hf) as (_ & _ & _ & _ & Hx). by apply Hx. }
  assert (Hnd : node n r i) by (by apply trees_node in Hin as [? _]).
  destruct (C20_path_lem n (NumRows n) (trees n) r i Hn (proj2 (NumRows_height _ _) eq_refl) Hf Hnd) as (j & tr & k & bits & _ & Ej & Hle & Hj & Hk & _).
  rewrite Ej in Ei. apply Ok_inv in Ei as <-. rewrite Nat2N.id. unfold place. rewrite list_lookup_fmap, Hj. cbn [fmap option_fmap option_map fst snd]. f_equal.
  assert (tr = r) as ->; [|rewrite N.sub_diag in Hk; change (2 ^ 0) with 1 in Hk; rewrite N.div_1_r in Hk; by subst k].
  destruct (N.eq_dec tr r) as [|Hne]; [done|exfalso]. apply elem_of_list_lookup_2 in Hj.
  destruct (C20_roots_lem n (NumRows n) _ Hn (proj2 (NumRows_height _ _) eq_refl) Hf) as (_ & _ & _ & _ & Hx). apply Hx, is_root_iff in Hj as [Hbt Ekt].
  rewrite testbit_mod in Hbt. assert (Eq : n / 2 ^ tr = i / 2 ^ (tr - r)).
  { subst i. symmetry. apply half_root. clear - Hle Hne. lia. }
  rewrite Eq, Hk, Ekt in Hbt. clear - Hbt. remember (n / 2 ^ (tr + 1)) as q. clear Heqq. dlia.
Qed.
Lemma create_rows_tab n k : n <= 2 ^ 62 -> forall c xs r, tabpos n (c_t c) -> create_rows k n c xs = Ok r -> tabpos n (c_t r.1).
Proof.
  intros Hn. induction k as [|k IH]; intros c xs r Ht E; cbn [create_rows] in E; [by apply Ok_inv in E as <-|].
  apply bind_ok in E as ([c1 xs1] & E1 & E). cbn [fst snd] in E. apply bind_ok in E as (r1 & E2 & E).
  assert (Ht1 : tabpos n (c_t c1)).
  { destruct (c_computed c) as [|cp cps]; [apply Ok_inv in E1; by injection E1 as <- _|]. apply bind_ok in E1 as (b & Eb & E1). destruct b; [|apply Ok_inv in E1; by injection E1 as <- _].
    apply bind_ok in E1 as (rp & Erp & E1). destruct (N.eqb_spec cp rp) as [->|]; [|apply Ok_inv in E1; by injection E1 as <- _].
    apply bind_ok in E1 as (idx & Ei & E1). apply bind_ok in E1 as (pr & _ & E1). apply bind_ok in E1 as (w & Ew & E1). apply bind_ok in E1 as (t1 & Et & E1).
    apply Ok_inv in E1. injection E1 as <- _. cbn [c_t]. eapply (tab_set n (c_t c) idx w _ t1 Ht Ew); [|exact Et]. cbn [w_pos set_w_flag set_w_pos].
    pose proof (RootIndex_root n _ rp idx Hn Eb Erp Ei) as Hp. destruct Ht as [ext Ht]. apply vec_get_inv in Ew.
    assert (Hq : (w_pos <$> c_t c) !! N.to_nat idx = Some (w_pos w)) by (by rewrite list_lookup_fmap, Ew). rewrite Ht, (lookup_app_l_Some _ _ _ _ Hp) in Hq. by injection Hq. }
  pose proof (create_row_tab _ _ _ _ _ _ Ht1 E2) as Ht2. destruct (r1.2); [by eapply IH|by apply Ok_inv in E as <-].
Qed.
Lemma verify_node_tab m p t ths next x r : tabpos m t -> verify_node H p t ths next x = Ok r -> tabpos m r.1.1.1.2.
Proof.
  intros Ht E. unfold verify_node in E. apply bind_ok in E as (w & Ew & E). destruct (negb (v_target (w_flag w))); [by apply Ok_inv in E as <-|].
  apply bind_ok in E as (t1 & E1 & E). assert (Ht1 : tabpos m t1).
  { destruct (w_parent w) as [y|]; [|by apply Ok_inv in E1 as <-]. destruct (v_valid (w_flag w)); [by eapply mark_valid_tab|by apply Ok_inv in E1 as <-]. }
  assert (Hm : forall t2, (match w_parent w with Some y => if v_sibcached (w_flag w) then mark_valid t1 y else Ok t1 | None => Ok t1 end) = Ok t2 -> tabpos m t2).
  { intros t2 E2. destruct (w_parent w) as [y|]; [|by apply Ok_inv in E2 as <-]. destruct (v_sibcached (w_flag w)); [by eapply mark_valid_tab|by apply Ok_inv in E2 as <-]. }
  destruct (w_pos w <? p_n p).
  - destruct ths as [|th ths']; [by apply Ok_inv in E as <-|]. apply bind_ok in E as (i & _ & E). apply bind_ok in E as ([[p1 t2] ok] & E2 & E).
    assert (Ht2 : tabpos m t2).
    { destruct (v_cached (w_flag w)); [|apply Ok_inv in E2; by injection E2 as _ <- _]. destruct (i_hash i.2 =? th); [|apply Ok_inv in E2; by injection E2 as _ <- _].
      apply bind_ok in E2 as (t3 & E3 & E2). apply Ok_inv in E2. injection E2 as _ <- _. by apply Hm. }
    destruct ok; cbn [negb] in E; [|by apply Ok_inv in E as <-]. apply bind_ok in E as (s & _ & E). by apply Ok_inv in E as <-.
  - destruct (negb (v_valid (w_flag w)) && v_cached (w_flag w)).
    + apply bind_ok in E as (ok & _ & E). destruct ok; cbn [negb] in E; [|by apply Ok_inv in E as <-]. apply bind_ok in E as (t2 & E2 & E). apply Ok_inv in E as <-. by apply Hm.
    + destruct (_ && _); [by apply Ok_inv in E as <-|]. apply bind_ok in E as (p1 & _ & E). apply bind_ok in E as (u & _ & E). by apply Ok_inv in E as <-.
Qed.
Lemma verify_row_tab m xs : forall p t ths next r, tabpos m t -> verify_row H p t ths next xs = Ok r -> tabpos m r.1.1.1.2.
Proof.
  induction xs as [|x xs IH]; intros p t ths next r Ht E; cbn [verify_row] in E; [by apply Ok_inv in E as <-|].
  apply bind_ok in E as ([[[[p1 t1] ths1] next1] v] & E1 & E). pose proof (verify_node_tab _ _ _ _ _ _ _ Ht E1) as Ht1. cbn [fst snd] in Ht1.
  destruct v; [by eapply IH|by apply Ok_inv in E as <-|by apply Ok_inv in E as <-].
Qed.
Lemma verify_rows_tab m fuel : forall p t ths xs r, tabpos m t -> verify_rows H fuel p t ths xs = Ok r -> tabpos m r.1.2.
Proof.
  induction fuel as [|fuel IH]; intros p t ths xs r Ht E; cbn [verify_rows] in E; (destruct xs as [|x xs]; [by apply Ok_inv in E as <-|]); [done|].
  apply bind_ok in E as ([[[[p1 t1] ths1] next1] v] & E1 & E). pose proof (verify_row_tab _ _ _ _ _ _ _ Ht E1) as Ht1. cbn [fst snd] in Ht1.
  destruct v; [by eapply IH|by apply Ok_inv in E as <-|by apply Ok_inv in E as <-].
Qed.
Lemma tab_roots n t : tabpos n t -> pr_pos <$> roots_of_tab t (length (place (NumRows n) n)) = place (NumRows n) n.
Proof.
  intros [ext Ht]. unfold roots_of_tab. rewrite <- list_fmap_compose. change (pr_pos ∘ _) with w_pos. by rewrite fmap_take, Ht, take_app.
Qed.
Lemma P_Verify_pos p bp ths b p' : p_n p <= 2 ^ 62 -> P_Verify H p bp ths = Ok (b, p') -> P_root_positions p = place (NumRows (p_n p)) (p_n p) ->
  P_root_positions p' = place (NumRows (p_n p)) (p_n p).
Proof.
  intros Hn E Hp. unfold P_Verify in E. destruct (negb (size ths =? size (m_targets bp))); [apply Ok_inv in E; by injection E as _ <-|].
  apply bind_ok in E as (sane & _ & E). destruct (negb sane); [apply Ok_inv in E; by injection E as _ <-|].
  destruct (m_targets bp) eqn:Et; [apply Ok_inv in E; by injection E as _ <-|]. clear Et.
  apply bind_ok in E as ([[[[p1 t1] rec] xs] ok] & E1 & E). apply bind_ok in E as ([[p2 t2] ok2] & E2 & E).
  assert (Hk : length (p_roots p) = length (place (NumRows (p_n p)) (p_n p))) by (rewrite <- Hp; unfold P_root_positions; by rewrite fmap_length).
  assert (Ht1 : tabpos (p_n p) t1).
  { unfold P_CreateProofTree in E1. apply bind_ok in E1 as (pp & _ & E1). apply bind_ok in E1 as ([c o] & E3 & E1).
    apply (create_rows_tab _ _ Hn) in E3; [|cbn [c_t]; exists []; rewrite app_nil_r, <- Hp; unfold P_root_positions; by rewrite <- list_fmap_compose].
    cbn [fst snd] in *. destruct o; apply Ok_inv in E1; by injection E1 as _ <- _ _ _. }
  assert (Ht2 : tabpos (p_n p) t2).
  { destruct ok; [|apply Ok_inv in E2; by injection E2 as _ <- _]. by apply (verify_rows_tab _ _ _ _ _ _ _ Ht1) in E2. }
  rewrite Hk in E. destruct (negb ok2).
  - apply bind_ok in E as (h & _ & E). apply Ok_inv in E. injection E as _ <-. unfold P_root_positions. cbn [p_roots p_set_roots]. by apply tab_roots.
  - apply bind_ok in E as (u & _ & E). apply bind_ok in E as (m & _ & E). apply Ok_inv in E. injection E as _ <-. unfold P_root_positions. cbn [p_roots p_set_roots]. by apply tab_roots.
Qed.
Lemma P_Prune_pos p p' : P_Prune p = Ok p' -> P_root_positions p' = P_root_positions p /\ p_n p' = p_n p.
Proof. unfold P_Prune. intros E. apply bind_ok in E as (h & _ & E). apply bind_ok in E as (u & _ & E). by apply Ok_inv in E as <-. Qed.
Lemma Pollard_restore_pos hs n p : Pollard_restore hs n = Ok p -> n <= 2 ^ 62 -> p_n p = n /\ P_root_positions p = place (NumRows n) n.
Proof.
  unfold Pollard_restore. intros E Hn. apply bind_ok in E as (u1 & _ & E). rewrite RootPositions_ok in E by done. cbn [bind] in E. fold (trees n) in E. fold (place (NumRows n) n) in E.
  apply bind_ok in E as (u2 & E2 & E). assert (Hs : size (place (NumRows n) n) = size hs). { unfold assert_ in E2. destruct (N.eqb_spec (size (place (NumRows n) n)) (size hs)); done. }
  remember (place (NumRows n) n) as ps eqn:Eps. clear Eps E2.
  assert (Hg : forall k a q q', (a + k <= length ps)%nat -> p_n q = n -> P_root_positions q = take a ps ->
    foldM (fun p i => let* h := vec_at hs i in let* pos := vec_at ps i in let '(p', l) := alloc p (INode h None None) in Ok (p_set_roots p' (p_roots p' ++ [PRoot (Some l) pos vflag0]))) q (nseq (N.of_nat a) (N.of_nat k)) = Ok q' ->
    p_n q' = n /\ P_root_positions q' = take (a + k) ps).
  { induction k as [|k IH]; intros a q q' Hk Hqn Hq E0.
    - rewrite Nat.add_0_r. apply Ok_inv in E0 as <-. done.
    - rewrite Nat2N.inj_succ, <- N.add_1_r, nseq_cons in E0. cbn [foldM] in E0. apply bind_ok in E0 as (q1 & E1 & E0). apply bind_ok in E1 as (h & _ & E1). apply bind_ok in E1 as (pos & Epos & E1).
      unfold alloc in E1. apply Ok_inv in E1 as <-. replace (a + S k)%nat with (S a + k)%nat by lia. eapply IH; [lia| | |].
      3: { replace (N.of_nat (S a)) with (N.of_nat a + 1) by lia. exact E0. }
      + done.
      + unfold P_root_positions in *. cbn [p_roots p_set_roots]. rewrite fmap_app, Hq. cbn [fmap list_fmap pr_pos]. symmetry. apply take_S_r. unfold vec_at in Epos. rewrite Nat2N.id in Epos.
        destruct (ps !! a); [|done]. by apply Ok_inv in Epos as <-. }
  destruct (Hg (length ps) 0%nat (Pollard_new n) p ltac:(lia) eq_refl) as [H1 H2]; [done| |].
  { unfold size in Hs. change (N.of_nat 0) with 0. rewrite Hs. exact E. }
  split; [done|]. by rewrite H2, Nat.add_0_l, firstn_all.
Qed.
End Pollard.
