(** * CheckedFacts: the checks of the verify build (proofs) *)
From stdpp Require Import sorting.
From Verif Require Import Base StateModel CodecModel ForestModel PollardModel PosSpec PosFacts PathFacts MerkleSpec CodecSpec CodecFacts TargetFacts ForestFacts
  RowFacts TransformFacts SpecFacts RemoveFacts ForestInv AddFacts UndoFacts CommitFacts ForestSpec HistFacts CheckedModel.
From Coq Require Import ZifyBool ZifyNat ZifyN.
Ltac Zify.zify_post_hook ::= idtac.
Ltac dlia := zify; Z.div_mod_to_equations; lia.

Definition val {A} (d : A) (r : res A) : A := match r with Ok x => x | _ => d end.
Lemma ok_inj {A} (x y : A) : Ok x = Ok y -> x = y.
Proof. intros E. exact (f_equal (val x) E). Qed.
Lemma assert_ok b x : assert_ b = Ok x -> b = true.
Proof. by destruct b. Qed.

(** ** Positions *)
Lemma Parent_ge n pos q : Parent n pos = Ok q -> n <= q.
Proof.
  unfold Parent, shl64. intros E. apply bind_ok in E as (m & E1 & E2). destruct (N.ltb_spec (NumRows n) 64) as [Hr|]; [|done].
  apply ok_inj in E1, E2. subst m q. rewrite N.shiftl_1_l. rewrite w64_small.
  - pose proof (NumRows_bound n). enough (2 ^ NumRows n <= N.lor (N.shiftr pos 1) (2 ^ NumRows n)) by lia.
    remember (N.shiftr pos 1) as a eqn:Ea. clear Ea.
    assert (Hb : N.testbit (N.lor a (2 ^ NumRows n)) (NumRows n) = true) by (rewrite N.lor_spec, N.pow2_bits_true; apply orb_true_r).
    destruct (N.le_gt_cases (2 ^ NumRows n) (N.lor a (2 ^ NumRows n))) as [?|Hlt]; [done|]. exfalso.
    remember (N.lor a (2 ^ NumRows n)) as b eqn:Eb.
    assert (b <> 0) by (intros ->; by rewrite N.bits_0 in Hb). apply N.log2_lt_pow2 in Hlt; [|lia].
    rewrite N.bits_above_log2 in Hb by done. done.
  - change two64 with (2 ^ 64). apply N.pow_lt_mono_r; lia.
Qed.
Lemma F_Parent_ge n pos q : F_Parent n pos = Ok (Some q) -> n <= q.
Proof.
  unfold F_Parent. intros E. apply bind_ok in E as (pp & E1 & E). apply bind_ok in E as (row & _ & E).
  apply bind_ok in E as (b & _ & E). apply bind_ok in E as (rp & _ & E). apply ok_inj in E.
  destruct (b && (rp =? pos)); [done|]. assert (pp = q) as -> by congruence. by eapply Parent_ge.
Qed.
Lemma V_Child_eq n pos b : n <= pos -> V_Child n pos b = Child n pos b.
Proof. intros Hp. unfold V_Child, V_LeftChild. destruct (N.leb_spec n pos); [done|lia]. Qed.
Lemma V_LeftDescendant_eq n pos r : DetectRow n pos = Ok r -> V_LeftDescendant n pos r = LeftDescendant n pos r.
Proof. intros E. unfold V_LeftDescendant. rewrite E. cbn [bind]. rewrite N.leb_refl. done. Qed.
Lemma V_ToLeaves_eq n s : DetectRow n (m_from s) = DetectRow n (m_to s) -> V_ToLeaves n s = ToLeaves n s.
Proof.
  intros E. unfold V_ToLeaves, ToLeaves. destruct (DetectRow n (m_from s)) as [r| | | |] eqn:E1; [|done|done|done|done]. cbn [bind].
  symmetry in E. destruct (r =? 0); [reflexivity|]. rewrite !V_LeftDescendant_eq by assumption. reflexivity.
Qed.

(** ** Swaps of subtrees *)
Lemma SwapRange_n f a b k f' : F_SwapRange f a b k = Ok f' -> f_n f' = f_n f.
Proof.
  unfold F_SwapRange. intros E. repeat (apply bind_ok in E as (? & _ & E)). apply ok_inj in E. by subst f'.
Qed.
Lemma swap_loop_n fuel : forall f a b k f' q, swap_subtrees_loop fuel f a b k = Ok (f', q) ->
  f_n f' = f_n f /\ (k <> 0 -> f_n f <= q) /\ (f_n f <= b -> f_n f <= q).
Proof.
  induction fuel as [|fuel IH]; intros f a b k f' q E; cbn [swap_subtrees_loop] in E; destruct (N.eqb_spec k 0) as [Hk|Hk]; try done.
  - apply ok_inj in E. assert (f = f' /\ b = q) as [-> ->] by (split; congruence). done.
  - apply ok_inj in E. assert (f = f' /\ b = q) as [-> ->] by (split; congruence). done.
  - apply bind_ok in E as (f1 & E1 & E). apply bind_ok in E as (a1 & _ & E). apply bind_ok in E as (b1 & E2 & E).
    apply SwapRange_n in E1. apply Parent_ge in E2. apply IH in E as (H1 & H2 & H3). rewrite E1 in *. split; [done|]. split; auto.
Qed.
Lemma SwapSubTrees_n f a b f' q : F_SwapSubTrees f a b = Ok (f', q) -> f_n f' = f_n f /\ f_n f <= q.
Proof.
  unfold F_SwapSubTrees. intros E. apply bind_ok in E as (r & _ & E). apply bind_ok in E as (r' & _ & E). apply bind_ok in E as (? & _ & E).
  apply bind_ok in E as (a' & _ & E). apply bind_ok in E as (b' & _ & E). destruct (31 <=? r); [done|].
  apply swap_loop_n in E as (H1 & H2 & _). split; [done|]. apply H2. pose proof (pow_pos r). lia.
Qed.
Lemma SwapSubTrees_rows f a b x : F_SwapSubTrees f a b = Ok x -> exists r, DetectRow (f_n f) a = Ok r /\ DetectRow (f_n f) b = Ok r.
Proof.
  unfold F_SwapSubTrees. intros E. apply bind_ok in E as (r & E1 & E). apply bind_ok in E as (r' & E2 & E). apply bind_ok in E as (? & E3 & E).
  apply assert_ok, N.eqb_eq in E3 as <-. eauto.
Qed.
Lemma VF_SwapSubTrees_eq f a b r : DetectRow (f_n f) a = Ok r -> DetectRow (f_n f) b = Ok r -> VF_SwapSubTrees f a b = F_SwapSubTrees f a b.
Proof. intros E1 E2. unfold VF_SwapSubTrees, F_SwapSubTrees. rewrite E1, E2. cbn [bind]. rewrite !V_LeftDescendant_eq by assumption. reflexivity. Qed.
Lemma VF_Update_eq f a b r : DetectRow (f_n f) a = Ok r -> DetectRow (f_n f) b = Ok r ->
  VF_UpdatePositionMapForSubtreeSwap f a b = F_UpdatePositionMapForSubtreeSwap f a b.
Proof.
  intros E1 E2. unfold VF_UpdatePositionMapForSubtreeSwap, F_UpdatePositionMapForSubtreeSwap. rewrite E1. cbn [bind]. rewrite !V_LeftDescendant_eq by assumption. reflexivity.
Qed.
Lemma UpdateRange_n f a b k f' : F_UpdatePositionMapForRange f a b k = Ok f' -> f_n f' = f_n f /\ f_data f' = f_data f.
Proof.
  unfold F_UpdatePositionMapForRange. intros E. destruct (N.of_nat _ =? 0).
  - apply ok_inj in E. by subst f'.
  - apply bind_ok in E as (? & _ & E). apply bind_ok in E as (? & _ & E). apply ok_inj in E. by subst f'.
Qed.
Lemma Update_n f a b f' : F_UpdatePositionMapForSubtreeSwap f a b = Ok f' -> f_n f' = f_n f.
Proof.
  unfold F_UpdatePositionMapForSubtreeSwap. intros E. apply bind_ok in E as (? & _ & E). apply bind_ok in E as (? & _ & E). apply bind_ok in E as (? & _ & E).
  apply bind_ok in E as (? & _ & E). by apply UpdateRange_n in E as [? _].
Qed.
Lemma VF_do_swaps_ok ss : forall f x, F_do_swaps f ss = Ok x ->
  VF_do_swaps f ss = Ok x /\ f_n x.1 = f_n f /\ forall d, d ∈ x.2 -> f_n f <= d.
Proof.
  induction ss as [|s ss IH]; intros f x E; cbn [F_do_swaps] in E; cbn [VF_do_swaps].
  - apply ok_inj in E. subst x. split; [done|]. split; [done|]. intros d Hd. cbn [snd] in Hd. by apply elem_of_nil in Hd.
  - apply bind_ok in E as (f1 & E1 & E). apply bind_ok in E as ([f2 q] & E2 & E). apply bind_ok in E as (y & E3 & E). cbn [fst snd] in *.
    pose proof (Update_n _ _ _ _ E1) as Hn1. destruct (SwapSubTrees_n _ _ _ _ _ E2) as [Hn2 Hq]. destruct (SwapSubTrees_rows _ _ _ _ E2) as (r & R1 & R2).
    pose proof (VF_SwapSubTrees_eq f1 _ _ r R1 R2) as Hv. rewrite Hn1 in R1, R2. rewrite (VF_Update_eq f _ _ r R1 R2), E1. cbn [bind].
    rewrite Hv, E2. cbn [bind fst snd].
    destruct (IH _ _ E3) as (E4 & Hn3 & Hd). rewrite E4. cbn [bind]. split; [exact E|]. apply ok_inj in E. subst x. cbn [fst snd].
    split; [congruence|]. intros d Hin. rewrite Hn2, Hn1 in Hd. rewrite Hn1 in Hq. destruct (m_collapse s); [by apply Hd|].
    apply elem_of_cons in Hin as [->|Hin]; [done|]. by apply Hd.
Qed.

(** ** Undo: the swaps *)
Lemma V_UndoTransform_eq n L0 : n <= 2 ^ 62 -> size L0 = n -> V_UndoTransform n (dead 0 L0) = UndoTransform n (dead 0 L0).
Proof.
  intros Hn HL. unfold V_UndoTransform, UndoTransform. destruct (decide (dead 0 L0 = [])) as [Hd|Hd]; [rewrite Hd, Transform_nil; done|].
  destruct (Transform_ok n L0 Hn HL Hd) as (h & Hh & Hdd & He & Ht). rewrite Ht. cbn [bind]. rewrite concat_fin.
  pose proof (all_swaps_good n L0 h Hn HL Hh Hdd) as Hg. revert Hg. generalize (all_swaps n L0 0 h) as l. intros l Hg.
  induction l as [|x l IH]; [done|]. cbn [fmap list_fmap List.filter].
  assert (IH' := IH ltac:(intros y Hy; apply Hg; by right)).
  destruct (negb _); [|exact IH']. cbn [mapM_]. rewrite V_ToLeaves_eq.
  - destruct (ToLeaves n _); [|done|done|done|done]. cbn [bind]. by rewrite IH'.
  - destruct (Hg x ltac:(left)) as (H1 & H2 & _). unfold sw_of. cbn [m_from m_to mk_collapse].
    apply node_slot in H1, H2. by rewrite !DetectRow_ok by done.
Qed.

(** ** Undo: the length of the bottom row *)
Lemma vec_set_len {A} (l : list A) i x l' : vec_set l i x = Ok l' -> size l' = size l.
Proof. unfold vec_set. destruct (i <? size l); [|done]. intros E. apply ok_inj in E. subst l'. apply size_insert. Qed.
Lemma vec_set_eq {A} (l : list A) i x l' : vec_set l i x = Ok l' -> i < size l /\ l' = <[N.to_nat i := x]> l.
Proof. unfold vec_set. destruct (N.ltb_spec i (size l)); [|done]. intros E. apply ok_inj in E. done. Qed.
Lemma len_set f i rd f' d : vec_set (f_data f) i rd = Ok d -> f_data f' = d -> i <> 0 \/ size rd = len f 0 -> len f' 0 = len f 0.
Proof.
  intros E Ef Hi. apply vec_set_eq in E as [Hlt ->]. unfold len. rewrite Ef. rewrite insert_total by (rewrite N2Nat.id; done).
  destruct (decide _) as [E0|]; [|done]. destruct Hi as [Hi|Hi]; [lia|]. exact Hi.
Qed.
Lemma vec_at_size f i rd : vec_at (f_data f) i = Ok rd -> i <> 0 \/ size rd = len f 0.
Proof.
  unfold vec_at. intros E. destruct (N.eqb_spec i 0) as [->|]; [right|by left]. destruct (f_data f !! N.to_nat 0) as [x|] eqn:Ex; [|done].
  apply ok_inj in E. subst x. unfold len. by rewrite (list_lookup_total_correct _ _ _ Ex).
Qed.
Lemma swaps_len row a b ks : forall l, foldM (fun l i => swap_elems l (add64 a i) (add64 b i)) row ks = Ok l -> size l = size row.
Proof.
  revert row. induction ks as [|k ks IH]; intros row l E; cbn [foldM] in E; [apply ok_inj in E; by subst l|].
  apply bind_ok in E as (row' & E1 & E). rewrite (IH _ _ E). unfold swap_elems in E1.
  apply bind_ok in E1 as (? & _ & E1). apply bind_ok in E1 as (? & _ & E1). apply bind_ok in E1 as (r1 & E2 & E1).
  apply vec_set_len in E1, E2. lia.
Qed.
Lemma SwapRange_len f a b k f' : F_SwapRange f a b k = Ok f' -> len f' 0 = len f 0.
Proof.
  unfold F_SwapRange. intros E. apply bind_ok in E as (r & _ & E). apply bind_ok in E as (o1 & _ & E). apply bind_ok in E as (o2 & _ & E).
  apply bind_ok in E as (rd & E1 & E). apply bind_ok in E as (rd' & E2 & E). apply bind_ok in E as (d & E3 & E). apply ok_inj in E. subst f'.
  eapply len_set; [exact E3|done|]. apply swaps_len in E2. rewrite E2. by apply vec_at_size.
Qed.
Lemma undo_swaps_len ss : forall f dirt x, undo_swaps_loop f dirt ss = Ok x -> len x.1 0 = len f 0 /\ f_n x.1 = f_n f.
Proof.
  induction ss as [|s ss IH]; intros f dirt x E; cbn [undo_swaps_loop] in E; [apply ok_inj in E; by subst x|].
  apply bind_ok in E as (f1 & E1 & E). apply bind_ok in E as (f2 & E2 & E). apply IH in E as [-> ->].
  pose proof (SwapRange_n _ _ _ _ _ E2) as Hn. apply SwapRange_len in E2. apply UpdateRange_n in E1 as [Hn1 Hd]. unfold len in *.
  rewrite Hd in E2. split; [done|congruence].
Qed.
Lemma undo_place_len n hs : forall i row m dirt x, undo_place n i row m dirt hs = Ok x -> size x.1.1.2 = size row.
Proof.
  induction hs as [|h hs IH]; intros i row m dirt x E; cbn [undo_place] in E; [apply ok_inj in E; by subst x|].
  destruct (size row <=? add64 n i); [apply ok_inj in E; by subst x|]. apply bind_ok in E as (row' & E1 & E). apply vec_set_len in E1.
  destruct (m !! h); [apply ok_inj in E; by subst x|]. apply IH in E. congruence.
Qed.
Lemma undo_first_ge st ps : forall acc x, undo_first_dirt st ps acc = Ok x -> (forall d, d ∈ acc -> st <= d) -> forall d, d ∈ x -> st <= d.
Proof.
  induction ps as [|p ps IH]; intros acc x E Ha; cbn [undo_first_dirt] in E; [apply ok_inj in E; by subst x|].
  apply bind_ok in E as (pp & E1 & E). apply Parent_ge in E1. apply bind_ok in E as (hr & _ & E). apply bind_ok in E as (skip & _ & E).
  assert (Ha' : forall d, d ∈ acc ++ [pp] -> st <= d).
  { intros d Hd. apply elem_of_app in Hd as [Hd|Hd%elem_of_list_singleton]; [by apply Ha|]. by subst d. }
  destruct skip; [by eapply IH|]. destruct (last acc) as [b|]; [|by eapply IH]. destruct (b =? pp); by eapply IH.
Qed.

Lemma positions_all m row0 : forall a, (forall i h, row0 !! i = Some h -> m !! h = Some (a + N.of_nat i)) -> positions_ok m a row0 = true.
Proof.
  induction row0 as [|h row0 IH]; intros a Hm; [done|]. cbn [positions_ok]. rewrite (Hm 0%nat h) by done.
  change (N.of_nat 0) with 0. rewrite N.add_0_r, N.eqb_refl. cbn [andb]. apply IH. intros i h' Hi. rewrite (Hm (S i) h') by done. f_equal. lia.
Qed.
Lemma unknown_NoDup m ls (adds : list leaf) : (forall h p, m !! h = Some p -> h ∈ ls) -> NoDup (ls ++ adds.*1) -> unknown_leaves m adds = true.
Proof.
  intros Hm Hnd. apply forallb_forall. intros l Hl%elem_of_list_In. destruct (m !! l.1) as [p|] eqn:E; [|done]. apply Hm in E.
  apply NoDup_app in Hnd as (_ & Hx & _). destruct (Hx _ E). apply elem_of_list_fmap. by exists l.
Qed.

Section Checked.
Context (H : hash -> hash -> hash).

Lemma VF_ReHash_ok f st d f' : st <= d -> F_ReHash H f st d = Ok f' ->
  VF_ReHash H f st d = Ok f' /\ f_n f' = f_n f /\ len f' 0 = len f 0.
Proof.
  intros Hd E. split.
  - unfold VF_ReHash. rewrite !V_Child_eq by done. exact E.
  - unfold F_ReHash in E. apply bind_ok in E as (? & _ & E). apply bind_ok in E as (? & _ & E). apply bind_ok in E as (? & _ & E). apply bind_ok in E as (? & _ & E).
    apply bind_ok in E as (r & _ & E). apply bind_ok in E as (o & _ & E). apply bind_ok in E as (rd & E1 & E). apply bind_ok in E as (rd' & E2 & E).
    apply bind_ok in E as (dd & E3 & E). apply ok_inj in E. subst f'. split; [done|]. eapply len_set; [exact E3|done|].
    apply vec_set_len in E2. rewrite E2. by apply vec_at_size.
Qed.
Lemma VF_rehash_dirt_ok st dirt : forall f acc x, (forall d, d ∈ dirt -> st <= d) -> (forall d, d ∈ acc -> st <= d) ->
  F_rehash_dirt H f st dirt acc = Ok x -> VF_rehash_dirt H f st dirt acc = Ok x /\ f_n x.1 = f_n f /\ forall d, d ∈ x.2 -> st <= d.
Proof.
  induction dirt as [|d ds IH]; intros f acc x Hd Ha E; cbn [F_rehash_dirt] in E; cbn [VF_rehash_dirt].
  - split; [done|]. apply ok_inj in E. by subst x.
  - apply bind_ok in E as (f1 & E1 & E). apply bind_ok in E as (pp & E2 & E). apply bind_ok in E as (acc' & E3 & E).
    destruct (VF_ReHash_ok f st d f1 ltac:(apply Hd; left) E1) as (E1' & Hn & _). rewrite E1', E2. cbn [bind]. rewrite E3. cbn [bind].
    destruct (IH f1 acc' x) as (E4 & Hn4 & Hx); [intros y Hy; apply Hd; by right| |exact E|].
    + assert (Hp : forall p, F_Parent st d = Ok p -> forall y, y ∈ (match p with Some x => acc ++ [x] | None => acc end) -> st <= y).
      { intros p Hp y Hy. destruct p as [z|]; [|by apply Ha]. apply F_Parent_ge in Hp.
        apply elem_of_app in Hy as [Hy|Hy%elem_of_list_singleton]; [by apply Ha|]. by subst y. }
      intros y Hy. destruct (last acc) as [b|].
      * destruct (b =? pp); [apply ok_inj in E3; subst acc'; by apply Ha|]. apply bind_ok in E3 as (p & Ep & E3). apply ok_inj in E3. subst acc'. by eapply Hp.
      * apply bind_ok in E3 as (p & Ep & E3). apply ok_inj in E3. subst acc'. by eapply Hp.
    + split; [exact E4|]. split; [congruence|done].
Qed.
Lemma VF_remove_rows_ok k : forall row st swaps f dirt x, f_n f = st -> (forall d, d ∈ dirt -> st <= d) ->
  F_remove_rows H k row st swaps f dirt = Ok x -> VF_remove_rows H k row st swaps f dirt = Ok x.
Proof.
  induction k as [|k IH]; intros row st swaps f dirt x Hf Hd E; cbn [F_remove_rows] in E; cbn [VF_remove_rows]; [done|].
  apply bind_ok in E as ([f1 d1] & E1 & E). apply bind_ok in E as ([f2 d2] & E2 & E). cbn [fst snd] in *.
  assert (Hfd : (if row <? size swaps then let* ss := vec_at swaps row in let* r := VF_do_swaps f ss in Ok (r.1, dirt ++ r.2) else Ok (f, dirt)) = Ok (f1, d1)
    /\ f_n f1 = st /\ forall d, d ∈ d1 -> st <= d).
  { destruct (row <? size swaps).
    - apply bind_ok in E1 as (ss & Es & E1). apply bind_ok in E1 as (y & Ey & E1). rewrite Es. cbn [bind].
      destruct (VF_do_swaps_ok _ _ _ Ey) as (Ey' & Hn & Hy). rewrite Ey'. cbn [bind]. split; [exact E1|]. apply ok_inj in E1.
      assert (y.1 = f1 /\ dirt ++ y.2 = d1) as [<- <-] by (split; congruence). split; [congruence|]. intros d [Hx|Hx]%elem_of_app; [by apply Hd|].
      rewrite <- Hf. by apply Hy.
    - split; [done|]. apply ok_inj in E1. assert (f = f1 /\ dirt = d1) as [<- <-] by (split; congruence). done. }
  destruct Hfd as (E1' & Hf1 & Hd1). rewrite E1'. cbn [bind fst snd].
  destruct (VF_rehash_dirt_ok st d1 f1 [] (f2, d2) Hd1) as (E2' & Hn2 & Hd2); [by intros d ?%elem_of_nil|exact E2|]. rewrite E2'. cbn [bind fst snd] in *.
  apply IH; [congruence|done|exact E].
Qed.
Lemma VF_Remove_ok f ts x : F_Remove H f ts = Ok x -> VF_Remove H f ts = Ok x.
Proof.
  unfold F_Remove, VF_Remove. intros E. destruct ts as [|t ts]; [done|]. apply bind_ok in E as (sane & E1 & E). rewrite E1. cbn [bind].
  destruct (negb sane); [done|]. apply bind_ok in E as (sw & E2 & E). rewrite E2. cbn [bind]. apply bind_ok in E as (fd & E3 & E).
  rewrite (VF_remove_rows_ok _ _ _ _ _ _ fd eq_refl) ; [exact E|by intros d ?%elem_of_nil|exact E3].
Qed.

Lemma VF_Add_known f (ls : list leaf) : unknown_leaves (f_posmap f) ls = true -> VF_Add H f ls = F_Add H f ls.
Proof.
  intros Hu. unfold VF_Add, F_Add. destruct (foldM _ _ _) as [d| | | |]; [|done|done|done|done]. cbn [bind].
  destruct (assert_ _) as [[]| | | |]; [|done|done|done|done]. cbn [bind]. rewrite Hu. done.
Qed.
Lemma VF_Add_abort f (ls : list leaf) : unknown_leaves (f_posmap f) ls = false -> F_Add H f ls = Abort -> VF_Add H f ls = Abort.
Proof.
  intros Hu. unfold VF_Add, F_Add. destruct (foldM (F_resize_row _) _ _) as [d| | | |]; [|done|done|done|done]. cbn [bind].
  destruct (assert_ _) as [[]| | | |]; [|done|done|done|done]. cbn [bind]. rewrite Hu. done.
Qed.
Lemma inv_posmap f ls h p : inv H f ls -> f_posmap f !! h = Some p -> h ∈ ls.
Proof.
  intros Hi E. apply (inv_pos _ _ _ Hi) in E as [Hp <-]. rewrite (inv_node _ _ _ Hi).
  - cbn [nh]. eapply elem_of_list_lookup_2. apply leaf_at_lookup. split; [exact Hp|done].
  - unfold node. change (2 ^ N.of_nat 0) with 1. lia.
Qed.
Lemma VF_Add_eq f ls (adds : list leaf) : inv H f ls -> size ls + size adds < 2 ^ 31 -> VF_Add H f adds = F_Add H f adds.
Proof.
  intros Hi Hb. destruct (unknown_leaves (f_posmap f) adds) eqn:Eu; [by apply VF_Add_known|].
  destruct (F_Add_ok H f ls adds Hi) as [(Hnd & _)|(Hnd & E)].
  { unfold leaf in *. assert (2 ^ 31 <= 2 ^ 61) by done. lia. }
  - rewrite (unknown_NoDup _ ls) in Eu; [done| |done]. intros h p. by apply inv_posmap.
  - rewrite E. by apply VF_Add_abort.
Qed.

Lemma VF_Modify_eq f us (adds : list leaf) ts : reachable H f us -> f_n f + size adds < 2 ^ 31 + size ts ->
  VF_Modify H f adds ts = F_Modify H f adds ts /\ VF_ModifyUndo H f adds ts = F_ModifyUndo H f adds ts.
Proof.
  intros Hr Hb. destruct (reachable_inv H f us Hr) as (ls & Hi & Hn & _). pose proof (inv_wide _ _ _ Hi) as [Hfn _]. rewrite Hfn in Hb.
  unfold VF_Modify, VF_ModifyUndo, F_Modify, F_ModifyUndo.
  destruct (valid_dec (size ls) ts) as [Hv|Hv].
  - destruct (F_Remove_all H f ls ts Hi Hn Hv) as (f1 & E1 & Hi1 & Hs1 & Hl1 & Hsz1 & _). rewrite (VF_Remove_ok _ _ _ E1), E1. cbn [bind fst snd negb].
    rewrite (VF_Add_eq f1 _ adds Hi1) by (unfold leaf in *; lia). done.
  - pose proof (F_Remove_invalid H f (size ls) ts Hfn Hv) as E1. rewrite (VF_Remove_ok _ _ _ E1), E1. done.
Qed.

(** ** Undo *)
Lemma V_undo_rehash_ok st dirt : forall f acc x, (forall d, d ∈ dirt -> st <= d) -> (forall d, d ∈ acc -> st <= d) ->
  undo_rehash H f st dirt acc = Ok x -> V_undo_rehash H f st dirt acc = Ok x /\ len x.1 0 = len f 0 /\ forall d, d ∈ x.2 -> st <= d.
Proof.
  induction dirt as [|d ds IH]; intros f acc x Hd Ha E; cbn [undo_rehash] in E; cbn [V_undo_rehash].
  - split; [done|]. apply ok_inj in E. by subst x.
  - apply bind_ok in E as (f1 & E1 & E). apply bind_ok in E as (p & E2 & E).
    destruct (VF_ReHash_ok f st d f1 ltac:(apply Hd; left) E1) as (E1' & _ & Hl). rewrite E1', E2. cbn [bind].
    eapply IH in E as (E4 & Hl4 & Hx); [split; [exact E4|]; split; [congruence|done]|intros y Hy; apply Hd; by right|].
    destruct p as [z|]; [|done]. apply F_Parent_ge in E2.
    assert (Hz : forall y, y ∈ acc ++ [z] -> st <= y) by (intros y [Hy|Hy%elem_of_list_singleton]%elem_of_app; [by apply Ha|by subst y]).
    destruct (last acc) as [b|]; [destruct (b =? z)|]; done.
Qed.
Lemma V_undo_rows_ok k : forall r st f dirt x, r <> 0 -> (forall d, d ∈ dirt -> st <= d) ->
  undo_rows H k r st f dirt = Ok x -> V_undo_rows H k r st f dirt = Ok x /\ len x 0 = len f 0.
Proof.
  induction k as [|k IH]; intros r st f dirt x Hr Hd E; cbn [undo_rows] in E; cbn [V_undo_rows].
  - split; [done|]. apply ok_inj in E. by subst x.
  - apply bind_ok in E as (rd & E1 & E). apply bind_ok in E as (sz & E2 & E). apply bind_ok in E as (d & E3 & E). apply bind_ok in E as (y & E4 & E).
    rewrite E1, E2. cbn [bind]. rewrite E3. cbn [bind].
    destruct (V_undo_rehash_ok st dirt _ [] y Hd ltac:(by intros z ?%elem_of_nil) E4) as (E4' & Hl & Hy). rewrite E4'. cbn [bind].
    apply IH in E as (E' & Hl'); [|lia|done]. split; [exact E'|]. rewrite Hl', Hl. eapply len_set; [exact E3|done|by left].
Qed.
Lemma RestoreRoots_data f f' : F_RestoreRoots f = Ok f' -> f_data f' = f_data f.
Proof. unfold F_RestoreRoots. intros E. apply bind_ok in E as (? & _ & E). apply bind_ok in E as (? & _ & E). apply ok_inj in E. by subst f'. Qed.

Lemma VF_Undo_ok f u f' ls0 L0 : F_Undo H f u = Ok (true, f') -> inv H f' ls0 -> size ls0 < 2 ^ 31 ->
  m_deleted_positions u = dead 0 L0 -> size L0 = size ls0 ->
  sub64 (add64 (f_n f) (size (m_deleted_positions u))) (m_num_additions u) = size ls0 -> 0 < size (f_data f) ->
  VF_Undo H f u = Ok (true, f').
Proof.
  intros E Hi Hn Hts HL Hprev Hrows. unfold F_Undo in E. unfold VF_Undo. assert (H62 : 2 ^ 31 <= 2 ^ 62) by done.
  destruct (N.eqb_spec (size (f_data f)) 0); [lia|]. rewrite Hprev in *. rewrite Hts in *. rewrite V_UndoTransform_eq by (done || lia).
  apply bind_ok in E as (sw & E1 & E). rewrite E1. cbn [bind]. apply bind_ok in E as (e & E2 & E). rewrite E2. cbn [bind].
  destruct (negb e.1); [apply ok_inj in E; congruence|]. apply bind_ok in E as (row0 & E3 & E). rewrite E3. cbn [bind].
  apply bind_ok in E as ([] & E4 & E). rewrite E4. cbn [bind]. apply bind_ok in E as ([[[placed row0'] m'] dirt] & E5 & E). rewrite E5. cbn [bind].
  apply bind_ok in E as (d & E6 & E). rewrite E6. cbn [bind]. destruct (negb placed); [apply ok_inj in E; congruence|].
  apply bind_ok in E as (fs & E7 & E). rewrite E7. cbn [bind]. apply bind_ok in E as (dirt0 & E8 & E). rewrite E8. cbn [bind].
  apply bind_ok in E as (f2 & E9 & E). apply bind_ok in E as (f3 & E10 & E). apply ok_inj in E. assert (f3 = f') as -> by congruence.
  apply undo_place_len in E5. cbn [fst snd] in E5. rewrite vec_resize_size in E5.
  apply undo_swaps_len in E7 as [Hl7 _]. pose proof (undo_first_ge _ _ _ _ E8 ltac:(by intros z ?%elem_of_nil)) as Hd0.
  destruct (V_undo_rows_ok _ 1 _ _ _ _ ltac:(done) Hd0 E9) as [E9' Hl9]. rewrite E9'. cbn [bind]. rewrite E10. cbn [bind].
  assert (Hl : len f' 0 = size ls0).
  { unfold len at 1. rewrite (RestoreRoots_data _ _ E10). fold (len f2 0). rewrite Hl9, Hl7. unfold len. cbn [f_data].
    apply vec_set_eq in E6 as [Hlt ->]. rewrite insert_total by (rewrite N2Nat.id; done). rewrite decide_True by done. exact E5. }
  pose proof (inv_rows _ _ _ Hi) as Hrw. rewrite vec_get_ok by lia. cbn [bind]. change (N.to_nat 0) with 0%nat.
  change (size (f_data f' !!! 0%nat)) with (len f' 0). rewrite Hl.
  assert (Hr0 : f_data f' !!! 0%nat = ls0).
  { apply list_eq. intros i. pose proof Hl as Hl0. unfold len, size in Hl0. destruct (decide (i < length ls0)%nat) as [Hlt|Hge].
    - pose proof (inv_node _ _ _ Hi 0%nat (N.of_nat i)) as HG. unfold G in HG. rewrite Nat2N.id in HG. cbn [nh] in HG.
      assert (Hnd : node (size ls0) (N.of_nat 0) (N.of_nat i)) by (unfold node, size; change (2 ^ N.of_nat 0) with 1; lia).
      specialize (HG Hnd). assert (E1' := proj1 (leaf_at_lookup ls0 (N.of_nat i) (leaf_at ls0 (N.of_nat i))) ltac:(unfold size; split; [lia|done])).
      rewrite Nat2N.id in E1'. rewrite E1'. rewrite <- HG. apply list_lookup_lookup_total_lt. lia.
    - rewrite !lookup_ge_None_2 by lia. done. }
  rewrite Hr0.
  assert (Hpm : forall i h, ls0 !! i = Some h -> f_posmap f' !! h = Some (0 + N.of_nat i)).
  { intros i h Hx. apply (inv_pos _ _ _ Hi). rewrite N.add_0_l. pose proof (lookup_lt_Some _ _ _ Hx). split; [unfold size; lia|].
    unfold G. rewrite Nat2N.id, Hr0. by apply list_lookup_total_correct. }
  rewrite (positions_all _ _ _ Hpm).
  assert (Hsz : N.of_nat (base.size (f_posmap f')) = size ls0).
  { eapply posmap_size. all: try exact (inv_pos _ _ _ Hi). }
  rewrite Hsz, N.eqb_refl. cbn [assert_ bind]. rewrite int_loop_ok by (assert (int_max + 1 = 2 ^ 31) by done; lia). done.
Qed.
Lemma VF_Undo_eq f u us : reachable H f (u :: us) -> VF_Undo H f u = F_Undo H f u.
Proof.
  intros Hr. destruct (reachable_inv H f _ Hr) as (ls & Hi & Hn & ls0 & He & Hk & Hn0 & _).
  destruct (Undo_entry H f ls u ls0 Hi Hn He Hk Hn0) as (f' & E & Hi' & _). rewrite E.
  destruct He as (ls1 & as_ & hs & ts & L0 & -> & -> & H1 & H2 & H3 & H4 & H5 & H6).
  apply (VF_Undo_ok f _ f' ls0 L0); [exact E|done|done|done|done| |lia]. cbn [m_deleted_positions m_num_additions].
  pose proof (inv_wide _ _ _ Hi) as [Hfn _]. rewrite Hfn, size_app'. rewrite size_app' in Hn.
  assert (2 ^ 31 + 2 ^ 31 < two64) by done. rewrite add64_small by lia. rewrite sub64_small by lia. lia.
Qed.
End Checked.
