(** * PlaceFacts: the positions the roots carry (proofs) *)
From stdpp Require Import sorting.
From Verif Require Import Base StateModel CodecModel ForestModel PollardModel PosSpec PosFacts PathFacts MerkleSpec TargetFacts ForestFacts
  RowFacts TransformFacts SpecFacts RemoveFacts ForestInv AddFacts ForestSpec HistFacts PosmapFacts CheckedModel CheckedFacts PlaceSpec.
From Coq Require Import ZifyBool ZifyNat ZifyN.
Ltac Zify.zify_post_hook ::= idtac.

(** ** The merging loop, on positions *)
Inductive merged (n : N) : N -> list N -> N -> list N -> Prop :=
| mg_stop row ps np : N.testbit n row = false -> merged n row ps np (ps ++ [np])
| mg_step row ps x np pp ps' : N.testbit n row = true -> Parent n np = Ok pp -> merged n (row + 1) ps pp ps' -> merged n row (ps ++ [x]) np ps'.

Definition pl (R n : N) (rows : list N) : list N := (λ x, enc R x (2 * (n / 2 ^ (x + 1)))) <$> rows.
Definition place (R n : N) : list N := (λ t : N * N, enc R t.1 t.2) <$> trees n.
Lemma place_pl R n : place R n = pl R n (root_rows (N.to_nat (NumRows n)) n).
Proof. unfold place, trees, pl. rewrite <- list_fmap_compose. done. Qed.
Lemma placed_place n R ps : placed n R ps <-> ps = place R n.
Proof.
  split.
  - intros (ts & Ht & ->). by rewrite (forest_unique n ts Ht).
  - intros ->. exists (trees n). split; [apply forest_root_rows|done].
Qed.

Lemma merged_ok n K R row ps np ps' : merged n row ps np ps' -> forall q, n <= 2 ^ 62 -> NumRows (n + 1) <= N.of_nat K -> n + 1 = q * 2 ^ row -> np = npos n row ->
  ps = pl R n (rr row K n) -> exists t q', n + 1 = q' * 2 ^ t /\ N.testbit n t = false /\ ps' = pl R n (rr t K n) ++ [npos n t].
Proof.
  induction 1 as [row ps np Hb|row ps x np pp ps' Hb Hp Hm IH]; intros q Hn HK Hq -> E.
  - exists row, q. split; [done|]. split; [done|]. by rewrite E.
  - destruct (ones_step n row q Hq) as (_ & Ht & _). destruct (Ht Hb) as [q' Eq]. assert (Hq' : n + 1 = q' * 2 ^ (row + 1)) by (rewrite pow_S; lia).
    destruct (npos_ok n row q' Hn Hq') as (Hp' & _). rewrite Hp in Hp'. apply Ok_inv in Hp' as ->.
    apply (IH q' Hn HK Hq' eq_refl). pose proof (ones_node n (n + 1) row q Hq ltac:(lia)) as Hx%node_row.
    rewrite rr_S, Hb in E. destruct (N.leb_spec row (N.of_nat K)); [|lia]. cbn [andb] in E. unfold pl in *. rewrite fmap_app in E. cbn [fmap list_fmap] in E.
    apply app_inj_2 in E as [-> _]; done.
Qed.

Lemma place_add R n t q : n + 1 = q * 2 ^ t -> N.testbit n t = false ->
  pl R n (rr t (N.to_nat (NumRows (n + 1))) n) ++ [enc R t (n / 2 ^ t)] = place R (n + 1).
Proof.
  intros Hq Hb. destruct (carry (λ a _, a) _ _ _ Hq Hb) as (s & Es & Hd & Hx). rewrite place_pl. remember (N.to_nat (NumRows (n + 1))) as K eqn:EK.
  rewrite <- (rr_0 K (n + 1)), (rr_low t q K (n + 1) Hq), (rr_S t K (n + 1)), (rr_S t K n), Hb. rewrite app_nil_r.
  assert (HtK : t <= N.of_nat K). { pose proof (ones_node n (n + 1) t q Hq ltac:(lia)) as Ht%node_row. lia. }
  assert (Hbt : N.testbit (n + 1) t = true). { rewrite testbit_mod, Hq, N.div_mul by (pose proof (pow_pos t); lia). subst q. clear. dlia. }
  rewrite Hbt. destruct (N.leb_spec t (N.of_nat K)); [|lia]. cbn [andb].
  assert (Hext : rr (t + 1) K (n + 1) = rr (t + 1) K n). { apply rr_ext. intros x Hx'. by rewrite !testbit_mod, Hx by lia. }
  unfold pl. rewrite Hext, !fmap_app. f_equal.
  - apply list_fmap_ext. intros k x Hk%elem_of_list_lookup_2. unfold rr in Hk. apply elem_of_list_filter in Hk as [Hle _]. by rewrite Hx by lia.
  - cbn [fmap list_fmap]. f_equal. f_equal. rewrite div_pow_S, Hq, N.div_mul by (pose proof (pow_pos t); lia). subst q. rewrite Hd. clear. dlia.
Qed.

(** One leaf: the positions after the loop, and after the correction when the height grows. *)
Definition stepped (n : N) (ps fin : list N) : Prop :=
  exists ps', merged n 0 ps n ps' /\
    (((NumRows n =? 0) || (NumRows n =? NumRows (n + 1)) = true /\ fin = ps') \/
     ((NumRows n =? 0) || (NumRows n =? NumRows (n + 1)) = false /\
      exists p0 p1 a b rest, RootPosition (n + 1) 0 = Ok p1 /\ RootPosition (n + 1) (NumRows (n + 1) - 1) = Ok p0 /\ ps' = a :: b :: rest /\ fin = p0 :: p1 :: rest)).

Lemma grow n : NumRows n <> NumRows (n + 1) -> n = 2 ^ NumRows n /\ NumRows (n + 1) = NumRows n + 1.
Proof.
  intros Hne. pose proof (NumRows_mono n (n + 1) ltac:(lia)) as Hm. assert (Hlt : NumRows n < NumRows (n + 1)) by lia. pose proof Hlt as Hg%NumRows_gt.
  pose proof (NumRows_bound n) as Hb. split; [lia|]. assert (NumRows (n + 1) <= NumRows n + 1); [|lia]. apply NumRows_le. rewrite pow_S. pose proof (pow_pos (NumRows n)). lia.
Qed.

Lemma stepped_grow n ps fin : n < 2 ^ 62 -> NumRows n <> 0 -> NumRows n <> NumRows (n + 1) -> length fin = length (trees (n + 1)) -> stepped n ps fin ->
  fin = place (NumRows (n + 1)) (n + 1).
Proof.
  intros Hn H0 Hne Hl (ps' & _ & [[Hc _]|[_ (p0 & p1 & a & b & rest & E1 & E0 & _ & ->)]]).
  { apply orb_true_iff in Hc as [Hc%N.eqb_eq|Hc%N.eqb_eq]; done. }
  destruct (grow n Hne) as [En ER]. assert (Hf : is_forest (n + 1) [(NumRows n, 0); (0, n)]).
  { split.
    - cbn [tiles]. split; [lia|]. split; [change (2 ^ 0) with 1; lia|]. change (2 ^ 0) with 1. lia.
    - constructor; [by repeat constructor|]. repeat constructor. cbn [fst]. lia. }
  pose proof (forest_unique _ _ Hf) as Et. fold (trees (n + 1)) in Et. rewrite <- Et in Hl. cbn [length] in Hl. destruct rest; [|cbn [length] in Hl; lia].
  unfold place. rewrite <- Et. destruct (C20_roots_lem (n + 1) (NumRows (n + 1)) _ ltac:(lia) (proj2 (NumRows_height _ _) eq_refl) Hf) as (_ & _ & _ & Hr & _).
  rewrite (Hr 0 n) in E1 by (right; left). rewrite ER, N.add_sub in E0. rewrite (Hr (NumRows n) 0) in E0 by left. apply Ok_inv in E0 as <-. apply Ok_inv in E1 as <-.
  cbn [fmap list_fmap fst snd]. by rewrite ER.
Qed.

Lemma stepped_right n ps fin : n < 2 ^ 62 -> n <> 1 -> NumRows n = NumRows (n + 1) -> ps = place (NumRows n) n -> stepped n ps fin ->
  fin = place (NumRows (n + 1)) (n + 1).
Proof.
  intros Hn H1 ER Hps (ps' & Hm & [[_ ->]|[Hc _]]); [|by rewrite ER, N.eqb_refl, orb_true_r in Hc].
  assert (Hn0 : n = npos n 0). { unfold npos. destruct (N.eqb_spec n 1) as [->|]; [done|]. change (2 ^ 0) with 1. by rewrite N.div_1_r, enc_0. }
  destruct (merged_ok n (N.to_nat (NumRows (n + 1))) (NumRows n) 0 ps n ps' Hm (n + 1) ltac:(lia) ltac:(lia) ltac:(change (2 ^ 0) with 1; lia) Hn0) as (t & q & Hq & Hb & ->).
  { by rewrite Hps, place_pl, rr_0, ER. }
  rewrite <- ER at 2. rewrite <- (place_add (NumRows n) n t q Hq Hb). do 2 f_equal. unfold npos. by destruct (N.eqb_spec n 1).
Qed.

Definition good (n : N) (ps : list N) : Prop := ps = place (NumRows n) n \/ n = 2.
Lemma good_grow n ps fin : n < 2 ^ 62 -> length fin = length (trees (n + 1)) -> stepped n ps fin -> NumRows n <> NumRows (n + 1) -> good (n + 1) fin.
Proof.
  intros Hn Hl Hs Hne. destruct (N.eq_dec (NumRows n) 0) as [H0|H0].
  - right. destruct (grow n Hne) as [En _]. rewrite H0 in En. change (2 ^ 0) with 1 in En. lia.
  - left. by eapply stepped_grow.
Qed.
Lemma good_step n ps fin : n < 2 ^ 62 -> length fin = length (trees (n + 1)) -> stepped n ps fin -> good n ps -> good (n + 1) fin.
Proof.
  intros Hn Hl Hs Hg. destruct (N.eq_dec n 1) as [->|H1]; [by right|]. destruct (N.eq_dec (NumRows n) (NumRows (n + 1))) as [He|He]; [|by eapply good_grow].
  left. destruct Hg as [Hg| ->]; [by eapply stepped_right|]. exfalso. by vm_compute in He.
Qed.

(** ** The forest *)
Section Forest.
Context (H : hash -> hash -> hash).

Lemma HasRoot_inv n row b : HasRoot n row = Ok b -> N.testbit n row = b.
Proof.
  intros E. destruct (N.lt_ge_cases row 64) as [Hr|Hr]; [rewrite HasRoot_ok in E by done; by apply Ok_inv in E|].
  unfold HasRoot, shr64 in E. destruct (N.ltb_spec row 64); [lia|discriminate E].
Qed.
Lemma vec_pop_inv {A} (l l' : list A) : vec_pop l = Ok l' -> exists x, l = l' ++ [x].
Proof.
  destruct l as [|x l _] using rev_ind; [done|]. rewrite vec_pop_snoc. intros E. apply Ok_inv in E as <-. by exists x.
Qed.
Lemma F_MergeRoot_pos f pp ph f' : F_MergeRoot f pp ph = Ok f' -> f_n f' = f_n f /\ exists rs a b h, f_roots f = rs ++ [a; b] /\ f_roots f' = rs ++ [RNode h (f_n f) pp].
Proof.
  unfold F_MergeRoot. intros E. apply bind_ok in E as (_ & _ & E). apply bind_ok in E as (r1 & E1 & E). apply bind_ok in E as (r2 & E2 & E).
  apply bind_ok in E as (row & _ & E). apply bind_ok in E as (_ & _ & E). apply bind_ok in E as (rd & _ & E). apply bind_ok in E as (off & _ & E).
  apply bind_ok in E as (rd2 & _ & E). apply bind_ok in E as (d & _ & E). apply bind_ok in E as (b & _ & E). apply Ok_inv in E as <-. split; [done|].
  apply vec_pop_inv in E1 as [y E1]. apply vec_pop_inv in E2 as [x E2]. exists r2, x, y, b. split; [|done]. by rewrite E1, E2, <- app_assoc.
Qed.
Lemma F_add_merge_pos n fuel : forall f row root h np f' ps, F_add_merge H fuel f n row root h np = Ok f' -> F_root_positions f = ps ++ [np] ->
  f_n f' = f_n f /\ merged n row ps np (F_root_positions f').
Proof.
  induction fuel as [|fuel IH]; intros f row root h np f' ps E Hps; cbn [F_add_merge] in E; apply bind_ok in E as (b & Eb%HasRoot_inv & E).
  - destruct b; [done|]. apply Ok_inv in E as <-. split; [done|]. rewrite Hps. by constructor.
  - destruct b.
    + apply bind_ok in E as (rnd & _ & E). apply bind_ok in E as (pp & Ep & E). apply bind_ok in E as (f1 & E1 & E). apply bind_ok in E as (bk & Ebk & E).
      destruct (F_MergeRoot_pos _ _ _ _ E1) as (Hn1 & rs & x & y & h' & Hr & Hr1). rewrite Hr1, vec_back_snoc in Ebk. apply Ok_inv in Ebk as <-. cbn [rn_pos rn_hash] in E.
      unfold F_root_positions in Hps. rewrite Hr in Hps. change [x; y] with ([x] ++ [y]) in Hps. rewrite app_assoc, !fmap_app in Hps. cbn [fmap list_fmap] in Hps. apply app_inj_2 in Hps as [<- _]; [|done].
      destruct (IH f1 (row + 1) _ _ pp f' (rn_pos <$> rs) E) as [Hn' Hm].
      { unfold F_root_positions. by rewrite Hr1, fmap_app. }
      split; [congruence|]. by econstructor.
    + apply Ok_inv in E as <-. split; [done|]. rewrite Hps. by constructor.
Qed.
Lemma F_add_leaf_pos f l f' : F_add_leaf H f l = Ok f' -> f_n f < 2 ^ 62 -> f_n f' = f_n f + 1 /\ stepped (f_n f) (F_root_positions f) (F_root_positions f').
Proof.
  intros E Hn. unfold F_add_leaf in E. apply bind_ok in E as (f1 & E1 & E). apply bind_ok in E as (f2 & E2 & E).
  assert (H1 : f_n f1 = f_n f /\ F_root_positions f1 = F_root_positions f ++ [f_n f]).
  { unfold F_NewLeaf in E1. apply bind_ok in E1 as (r0 & _ & E1). apply bind_ok in E1 as (r1 & _ & E1). apply bind_ok in E1 as (d & _ & E1). apply Ok_inv in E1 as <-.
    split; [done|]. unfold F_root_positions. cbn [f_roots]. by rewrite fmap_app. }
  destruct H1 as [Hn1 Hp1]. destruct (F_add_merge_pos _ _ _ _ _ _ _ _ _ E2 Hp1) as [Hn2 Hm]. rewrite Hn1 in Hn2. cbn [f_n set_n] in E. rewrite Hn2, add64_small in E by (assert (2 ^ 62 < two64) by done; lia).
  destruct ((NumRows (f_n f) =? 0) || (NumRows (f_n f) =? NumRows (f_n f + 1))) eqn:Ec.
  - apply Ok_inv in E as <-. split; [done|]. exists (F_root_positions f2). split; [done|]. left. done.
  - apply bind_ok in E as (ua & Ea & E). apply bind_ok in E as (p1 & Ep1 & E). apply bind_ok in E as (p0 & Ep0 & E). cbn [f_roots set_n] in *.
    destruct (f_roots f2) as [|a [|b rest]] eqn:Er; [discriminate Ea|discriminate Ea|].
    apply bind_ok in E as (r1 & G1 & E). apply bind_ok in E as (rs1 & G2 & E). apply bind_ok in E as (r0 & G3 & E). apply bind_ok in E as (rs2 & G4 & E).
    apply Ok_inv in E as <-. cbn [f_n set_roots set_n]. split; [done|]. exists (F_root_positions f2). split; [done|]. right. split; [done|].
    exists p0, p1, (rn_pos a), (rn_pos b), (rn_pos <$> rest). split; [done|]. split; [done|]. unfold F_root_positions. rewrite Er. split; [done|]. cbn [f_roots set_roots].
    unfold vec_set in G2, G4. destruct (1 <? size (a :: b :: rest)); [|discriminate G2]. apply Ok_inv in G2 as <-. destruct (0 <? _); [|discriminate G4]. apply Ok_inv in G4 as <-. done.
Qed.
Lemma add_leaves_pos hs : forall f ls next B f', core H f ls next B -> size ls + size hs <= next -> next <= 2 ^ 62 -> B + 65 * size hs < two64 -> foldM (F_add_leaf H) f hs = Ok f' ->
  (good (f_n f) (F_root_positions f) -> good (f_n f') (F_root_positions f')) /\ (NumRows (f_n f) <> NumRows (f_n f') -> good (f_n f') (F_root_positions f')).
Proof.
  induction hs as [|[h m] hs IH]; intros f ls next B f' Hc Hn Hn62 HB E.
  - cbn [foldM] in E. apply Ok_inv in E as <-. done.
  - cbn [foldM] in E. apply bind_ok in E as (f1 & E1 & E). unfold leaf in *. assert (Es : size ((h, m) :: hs) = size hs + 1) by (unfold size; cbn [length]; lia). rewrite Es in *.
    destruct (F_add_leaf_ok H f ls next B h m Hc ltac:(lia) Hn62 ltac:(lia)) as (f1' & E1' & Hc1 & _). rewrite E1 in E1'. apply Ok_inv in E1' as <-.
    assert (El : size (ls ++ [h]) = size ls + 1) by (unfold size; rewrite app_length; cbn [length]; lia).
    destruct (IH f1 (ls ++ [h]) next (B + 65) f' Hc1 ltac:(lia) Hn62 ltac:(lia) E) as [I1 I2]. pose proof (proj1 Hc) as Hfn.
    destruct (F_add_leaf_pos f _ f1 E1 ltac:(lia)) as [Hn1 Hst].
    assert (Hl : length (F_root_positions f1) = length (trees (f_n f + 1))).
    { destruct Hc1 as (Hf1 & _ & _ & Hr1). apply (f_equal length) in Hr1. unfold F_Roots, spec_roots in Hr1. unfold F_root_positions. rewrite !fmap_length in *. by rewrite Hr1, <- Hf1, Hn1. }
    rewrite Hn1 in I1, I2. split.
    + intros Hg. apply I1. by eapply good_step; [lia| | |].
    + intros Hne. destruct (N.eq_dec (NumRows (f_n f)) (NumRows (f_n f + 1))) as [He|He]; [apply I2; by rewrite <- He|]. apply I1. by eapply good_grow; [lia| | |].
Qed.
Lemma F_ReHash_n f st d f' : F_ReHash H f st d = Ok f' -> f_n f' = f_n f.
Proof.
  unfold F_ReHash. intros E. do 9 apply bind_ok in E as (? & _ & E). by apply Ok_inv in E as <-.
Qed.
Lemma F_rehash_dirt_n st dirt : forall f acc x, F_rehash_dirt H f st dirt acc = Ok x -> f_n x.1 = f_n f.
Proof.
  induction dirt as [|d dirt IH]; intros f acc x E; cbn [F_rehash_dirt] in E; [by apply Ok_inv in E as <-|].
  apply bind_ok in E as (f1 & E1 & E). apply bind_ok in E as (pp & _ & E). apply bind_ok in E as (acc' & _ & E). rewrite (IH _ _ _ E). by eapply F_ReHash_n.
Qed.
Lemma F_remove_rows_n k : forall row st swaps f dirt x, F_remove_rows H k row st swaps f dirt = Ok x -> f_n x.1 = f_n f.
Proof.
  induction k as [|k IH]; intros row st swaps f dirt x E; cbn [F_remove_rows] in E; [by apply Ok_inv in E as <-|].
  apply bind_ok in E as (fd & E1 & E). apply bind_ok in E as (r & E2 & E). rewrite (IH _ _ _ _ _ _ E), (F_rehash_dirt_n _ _ _ _ _ E2).
  destruct (row <? size swaps); [|by apply Ok_inv in E1 as <-]. apply bind_ok in E1 as (ss & _ & E1). apply bind_ok in E1 as (r' & E3 & E1). apply Ok_inv in E1 as <-. cbn [fst].
  by apply VF_do_swaps_ok in E3 as (_ & ? & _).
Qed.
Lemma F_Remove_pos f ts f' : F_Remove H f ts = Ok (true, f') -> f_n f <= 2 ^ 62 -> size ts <= f_n f -> ts <> [] ->
  f_n f' = f_n f - size ts /\ F_root_positions f' = place (NumRows (f_n f)) (f_n f - size ts).
Proof.
  intros E Hn Hs Hne. unfold F_Remove in E. destruct ts as [|t0 ts0] eqn:Ets; [done|]. rewrite <- Ets in *. clear Ets t0 ts0.
  apply bind_ok in E as (sane & _ & E). destruct sane; [|done]. cbn [negb] in E. apply bind_ok in E as (sws & _ & E). apply bind_ok in E as (fd & E1 & E). apply F_remove_rows_n in E1.
  apply bind_ok in E as (u & _ & E). apply bind_ok in E as (f1 & E2 & E). apply Ok_inv in E. injection E as <-. rewrite E1, sub64_small in E2 |- * by (assert (2 ^ 62 < two64) by done; lia).
  split; [done|]. unfold F_FinalizeRemove in E2. apply bind_ok in E2 as (u1 & _ & E2). apply bind_ok in E2 as (m & _ & E2). apply bind_ok in E2 as (u2 & _ & E2). rewrite E1 in E2.
  remember (f_n f) as n eqn:En. assert (Hpw : n - size ts < 2 ^ (NumRows n + 1)) by (rewrite pow_S; pose proof (NumRows_bound n); pose proof (pow_pos (NumRows n)); lia).
  rewrite RootPositionsFor_ok in E2 by done. cbn [bind] in E2. rewrite root_rows_trim in E2 by (pose proof (NumRows_mono (n - size ts) n ltac:(lia)); lia).
  apply bind_ok in E2 as (rs & E3 & E2). apply Ok_inv in E2 as <-. unfold F_root_positions. cbn [f_roots set_n]. fold (trees (n - size ts)) in E3. fold (place (NumRows n) (n - size ts)) in E3.
  clear - E3. revert rs E3. induction (place (NumRows n) (n - size ts)) as [|x l IH]; intros rs E; cbn [mapM_] in E; [by apply Ok_inv in E as <-|].
  apply bind_ok in E as (y & Ey & E). apply bind_ok in E as (ys & Eys & E). apply Ok_inv in E as <-. apply bind_ok in Ey as (h & _ & Ey). apply Ok_inv in Ey as <-.
  rewrite fmap_cons. cbn [rn_pos]. f_equal. by apply IH.
Qed.
Lemma F_Add_core f ls (hs : list leaf) f' : inv H f ls -> size ls + size hs <= 2 ^ 31 -> F_Add H f hs = Ok f' ->
  exists d, core H (set_data f d) ls (size ls + size hs) (size ls + size hs) /\ foldM (F_add_leaf H) (set_data f d) hs = Ok f'.
Proof.
  unfold leaf in *. intros [Hw Hnode Hp Hr Hrows] Hb E. remember (size ls) as n eqn:En. pose proof Hw as [Hfn Hlen].
  assert (H31 : 2 ^ 31 = 2147483648) by done. assert (H62 : 2 ^ 31 <= 2 ^ 62) by done. assert (H64 : two64 = 8589934592 * 2147483648) by done.
  unfold F_Add in E. unfold leaf in *. rewrite Hfn in E. rewrite add64_small in E by lia. remember (n + size hs) as next eqn:Enext.
  pose proof (NumRows_le next 31) as H31'. assert (HR : NumRows next <= 31) by (apply H31'; lia).
  destruct (resize_ok next (f_data f) (NumRows next + 1) ltac:(lia)) as (d & Ed & Hsd & Hd). rewrite Ed in E. cbn [bind] in E.
  apply bind_ok in E as (u1 & _ & E). apply bind_ok in E as (g & Eg & E). apply bind_ok in E as (u2 & _ & E). apply bind_ok in E as (u3 & _ & E). apply Ok_inv in E as <-.
  exists d. split; [|done].
  assert (Hlend : forall r, len (set_data f d) r = if N.of_nat r <? NumRows next + 1 then next / 2 ^ N.of_nat r else len f r).
  { intros r. unfold len. cbn [f_data set_data]. rewrite Hd. destruct (N.ltb_spec (N.of_nat r) (NumRows next + 1)); [|done]. apply vec_resize_size. }
  split; [cbn [f_n set_data]; congruence|]. split; [|split; [|done]].
  - intros r. rewrite Hlend. specialize (Hlen r). pose proof (pow_pos (N.of_nat r)) as HP.
    destruct (N.ltb_spec (N.of_nat r) (NumRows next + 1)).
    + assert (next / 2 ^ N.of_nat r <= next) by (apply N.div_le_upper_bound; [lia|]; nia). lia.
    + split; [|split; [lia|lia]]. rewrite N.div_small; [lia|]. pose proof (NumRows_bound next).
      assert (2 ^ NumRows next < 2 ^ N.of_nat r) by (apply N.pow_lt_mono_r; lia). lia.
  - intros r i Hi. rewrite <- En in Hi. rewrite <- Hnode by done. unfold G. cbn [f_data set_data]. rewrite Hd.
    destruct (N.ltb_spec (N.of_nat r) (NumRows next + 1)); [|done]. apply vec_resize_total; rewrite N2Nat.id.
    + apply node_iff. unfold node in *. lia.
    + eapply (wide_node f n r); done.
Qed.
Lemma F_Add_pos f ls (hs : list leaf) f' : inv H f ls -> size ls + size hs <= 2 ^ 31 -> F_Add H f hs = Ok f' ->
  (good (f_n f) (F_root_positions f) -> good (f_n f') (F_root_positions f')) /\ (NumRows (f_n f) <> NumRows (f_n f') -> good (f_n f') (F_root_positions f')).
Proof.
  intros Hi Hb E. destruct (F_Add_core f ls hs f' Hi Hb E) as (d & Hc & E'). assert (H62 : 2 ^ 31 <= 2 ^ 62) by done.
  assert (H31 : 2 ^ 31 = 2147483648) by done. assert (H64 : two64 = 8589934592 * 2147483648) by done.
  unfold leaf in *. apply (add_leaves_pos hs (set_data f d) ls _ _ f' Hc); [unfold leaf; lia|lia|unfold leaf; lia|done].
Qed.

Lemma place_small R R' n : n <= 1 -> place R n = place R' n.
Proof. intros Hn. assert (n = 0 \/ n = 1) as [-> | ->] by lia; [done|]. unfold place. change (trees 1) with [(0, 0)]. cbn [fmap list_fmap fst snd]. by rewrite !enc_0. Qed.

Lemma F_Modify_split f (adds : list leaf) ts f' : F_Modify H f adds ts = Ok (true, f') \/ (exists u, F_ModifyUndo H f adds ts = Ok (true, u, f')) ->
  exists f1, F_Remove H f ts = Ok (true, f1) /\ F_Add H f1 adds = Ok f'.
Proof.
  intros [E|[u E]]; [unfold F_Modify in E|unfold F_ModifyUndo in E]; apply bind_ok in E as ([b f1] & E1 & E); cbn [fst snd] in E; (destruct b; [|discriminate E]); cbn [negb] in E.
  - apply bind_ok in E as (f2 & E2 & E). apply Ok_inv in E. injection E as <-. by exists f1.
  - apply bind_ok in E as ([u'|] & _ & E); [|done]. apply bind_ok in E as (f2 & E2 & E). apply Ok_inv in E. injection E as _ <-. by exists f1.
Qed.

Lemma F_Modify_pos f us ls (adds : list leaf) ts f' : reachable H f us -> holds_leaves f ls -> size ls + size adds < 2 ^ 31 + size ts ->
  F_Modify H f adds ts = Ok (true, f') \/ (exists u, F_ModifyUndo H f adds ts = Ok (true, u, f')) ->
  (ts <> [] -> adds = [] -> F_root_positions f' = place (NumRows (f_n f)) (f_n f')) /\
  ((ts = [] -> good (f_n f) (F_root_positions f)) -> NumRows (f_n f - size ts) = NumRows (f_n f) \/ f_n f <= size ts + 1 -> good (f_n f') (F_root_positions f')) /\
  (NumRows (f_n f - size ts) <> NumRows (f_n f') -> good (f_n f') (F_root_positions f')).
Proof.
  intros Hr Hh Hb E. destruct (modify_cases H f us ls adds ts f' Hr Hh Hb E) as (Hv & Hi' & Hnd & Hsz & Hn). apply F_Modify_split in E as (f1 & E1 & E2).
  destruct (reachable_holds H f us ls Hr Hh) as (Hi & Hn0 & _). pose proof (inv_wide _ _ _ Hi) as [Hfn _]. pose proof (inv_wide _ _ _ Hi') as [Hfn' _].
  destruct (F_Remove_all H f ls ts Hi Hn0 Hv) as (g & E1' & Hi1 & _ & _ & Hs1 & _). rewrite E1 in E1'. apply Ok_inv in E1'. injection E1' as <-.
  assert (H62 : 2 ^ 31 <= 2 ^ 62) by done. pose proof (inv_wide _ _ _ Hi1) as [Hfn1 _].
  unfold leaf in *. destruct (F_Add_pos f1 _ adds f' Hi1 ltac:(unfold leaf; lia) E2) as [Ha Hg].
  assert (Hp1 : (ts = [] /\ f1 = f) \/ (ts <> [] /\ F_root_positions f1 = place (NumRows (f_n f)) (f_n f1))).
  { destruct ts as [|t ts'] eqn:Ets; [left|right; split; [done|]].
    - cbn in E1. apply Ok_inv in E1. by injection E1 as <-.
    - rewrite <- Ets in *. destruct (F_Remove_pos f ts f1 E1) as [H1 H2]; [lia|lia|by rewrite Ets|]. by rewrite H1, H2. }
  assert (E0 : f_n f1 = f_n f - size ts) by lia.
  split; [|split].
  - intros Hne ->. destruct Hp1 as [[? _]|[_ Hp1]]; [done|]. 
    cbn [size length] in *. assert (f_n f' = f_n f1) as -> by (change (size (@nil (N * bool))) with 0 in *; lia).
    destruct (F_Add_core f1 _ [] f' Hi1 ltac:(change (size (@nil leaf)) with 0; lia) E2) as (d & _ & E3). cbn [foldM] in E3. apply Ok_inv in E3 as <-. done.
  - intros Hgf Hc. apply Ha. destruct Hp1 as [[-> ->]|[_ Hp1]]; [by apply Hgf|]. left. rewrite Hp1. destruct Hc as [Hc|Hc]; [by rewrite E0, Hc|]. apply place_small. lia.
  - intros Hc. apply Hg. by rewrite E0.
Qed.

Lemma mapM_pos (f : forest) ps : forall rs, mapM_ (fun p => let* h := F_Read f p in Ok (RNode h (f_n f) p)) ps = Ok rs -> rn_pos <$> rs = ps.
Proof.
  induction ps as [|x l IH]; intros rs E; cbn [mapM_] in E; [by apply Ok_inv in E as <-|].
  apply bind_ok in E as (y & Ey & E). apply bind_ok in E as (ys & Eys & E). apply Ok_inv in E as <-. apply bind_ok in Ey as (h & _ & Ey). apply Ok_inv in Ey as <-.
  rewrite fmap_cons. cbn [rn_pos]. f_equal. by apply IH.
Qed.
Lemma F_RestoreRoots_pos f f' : F_RestoreRoots f = Ok f' -> f_n f <= 2 ^ 62 -> f_n f' = f_n f /\ F_root_positions f' = place (NumRows (f_n f)) (f_n f).
Proof.
  unfold F_RestoreRoots. intros E Hn. rewrite RootPositions_ok in E by done. cbn [bind] in E. apply bind_ok in E as (rs & E1 & E). apply Ok_inv in E as <-.
  split; [done|]. unfold F_root_positions. cbn [f_roots set_roots]. by rewrite (mapM_pos _ _ _ E1).
Qed.
Lemma undo_good_pos f u f' : F_Undo H f u = Ok (true, f') -> size (f_data f) <> 0 -> f_n f' <= 2 ^ 62 -> F_root_positions f' = place (NumRows (f_n f')) (f_n f').
Proof.
  intros E Hd Hn. unfold F_Undo in E. destruct (N.eqb_spec (size (f_data f)) 0); [done|].
  apply bind_ok in E as (sw & _ & E). apply bind_ok in E as (e & _ & E). destruct (e.1); [|done]. cbn [negb] in E. apply bind_ok in E as (row0 & _ & E).
  apply bind_ok in E as (u1 & _ & E). apply bind_ok in E as ([[[pd row0'] m'] dirt] & _ & E). apply bind_ok in E as (d & _ & E). destruct pd; [|done]. cbn [negb] in E.
  apply bind_ok in E as (fs & _ & E). apply bind_ok in E as (d0 & _ & E). apply bind_ok in E as (f2 & _ & E). apply bind_ok in E as (f3 & E3 & E).
  apply Ok_inv in E. injection E as ->. assert (f_n f' = f_n f2) as Hn2.
  { unfold F_RestoreRoots in E3. apply bind_ok in E3 as (ps & _ & E3). apply bind_ok in E3 as (rs & _ & E3). by apply Ok_inv in E3 as <-. }
  rewrite Hn2 in *. by apply F_RestoreRoots_pos.
Qed.
Lemma F_Undo_pos f u us f' : reachable H f (u :: us) -> F_Undo H f u = Ok (true, f') -> F_root_positions f' = place (NumRows (f_n f')) (f_n f').
Proof.
  intros Hr E. destruct (reachable_inv H f _ Hr) as (ls & Hi & _). pose proof (inv_rows _ _ _ Hi) as Hd.
  destruct (reachable_inv H f' us (reach_undo H f u us f' Hr E)) as (ls' & Hi' & Hn' & _). pose proof (inv_wide _ _ _ Hi') as [Hfn' _].
  assert (2 ^ 31 <= 2 ^ 62) by done. apply (undo_good_pos f u f' E); lia.
Qed.
Lemma F_Restore_pos bytes f' : F_Restore bytes = Ok f' -> f_n f' <= 2 ^ 62 -> F_root_positions f' = place (NumRows (f_n f')) (f_n f').
Proof.
  unfold F_Restore. intros E Hn. apply bind_ok in E as (n & _ & E). apply bind_ok in E as (r & _ & E).
  assert (f_n f' = n) as Hn2.
  { unfold F_RestoreRoots in E. apply bind_ok in E as (ps & _ & E3). apply bind_ok in E3 as (rs & _ & E3). by apply Ok_inv in E3 as <-. }
  rewrite Hn2 in *. by apply (F_RestoreRoots_pos _ f' E).
Qed.
End Forest.
