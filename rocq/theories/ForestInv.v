(** * ForestInv: the invariant of RamForest and Remove (proofs) *)
From stdpp Require Import sorting.
From Verif Require Import Base StateModel ForestModel PosSpec PosFacts PathFacts MerkleSpec TargetFacts ForestFacts RowFacts
  TransformFacts SpecFacts RemoveFacts.
From Coq Require Import ZifyBool ZifyNat ZifyN.
Ltac Zify.zify_post_hook ::= idtac.
Ltac dlia := zify; Z.div_mod_to_equations; lia.

Definition trees (n : N) : list (N * N) := root_at n <$> root_rows (N.to_nat (NumRows n)) n.
Definition spec_roots (H : hash -> hash -> hash) (ls : list hash) : list hash :=
  (λ t : N * N, nh H (leaf_at ls) (N.to_nat t.1) t.2) <$> trees (size ls).

Record inv (H : hash -> hash -> hash) (f : forest) (ls : list hash) : Prop := {
  inv_wide : wide f (size ls);
  inv_node : forall r i, node (size ls) (N.of_nat r) i -> G f r i = nh H (leaf_at ls) r i;
  inv_pos : posmap_inv f (size ls);
  inv_roots : F_Roots f = spec_roots H ls;
  inv_rows : NumRows (size ls) < size (f_data f) }.

(** ** Roots *)
Lemma spec_roots_of H ls : roots_of H ls (spec_roots H ls).
Proof. exists (trees (size ls)). split; [apply forest_root_rows|done]. Qed.
Lemma root_rows_trim n k : (N.to_nat (NumRows n) <= k)%nat -> root_rows k n = root_rows (N.to_nat (NumRows n)) n.
Proof.
  intros Hk. replace k with (k - N.to_nat (NumRows n) + N.to_nat (NumRows n))%nat by lia.
  generalize (k - N.to_nat (NumRows n))%nat as d. clear Hk k. induction d as [|d IH]; [done|].
  cbn [Nat.add root_rows]. rewrite IH. destruct (N.testbit n _) eqn:E; [|done]. exfalso.
  apply N.testbit_true in E. rewrite N.div_small in E; [done|]. 
  pose proof (NumRows_bound n). assert (2 ^ NumRows n < 2 ^ N.of_nat (S (d + N.to_nat (NumRows n)))); [|lia].
  apply N.pow_lt_mono_r; lia.
Qed.
Lemma trees_node n t : t ∈ trees n -> node n t.1 t.2 /\ is_root n t.1 t.2.
Proof.
  unfold trees. intros (r & -> & [_ Hr]%root_rows_elem)%elem_of_list_fmap. cbn [root_at fst snd].
  assert (Hi : is_root n r (2 * (n / 2 ^ (r + 1)))) by (by apply is_root_iff). split; [by destruct Hi|done].
Qed.

(** ** The position map *)
Lemma posmap_size f n : posmap_inv f n -> N.of_nat (base.size (f_posmap f)) = n.
Proof.
  intros Hp. rewrite <- size_dom.
  assert (E : dom (f_posmap f) = (list_to_set (G f 0 <$> nseq 0 n) : gset N)).
  { apply set_eq. intros h. rewrite elem_of_dom, elem_of_list_to_set, elem_of_list_fmap. split.
    - intros [p [Hlt <-]%Hp]. exists p. split; [done|]. apply nseq_elem. lia.
    - intros (p & -> & Hlt%nseq_elem). exists p. apply Hp. split; [lia|done]. }
  rewrite E, size_list_to_set.
  - rewrite fmap_length, nseq_length. lia.
  - apply NoDup_fmap_2_strong; [|apply nseq_NoDup]. intros x y Hx%nseq_elem Hy%nseq_elem. apply (posmap_inj _ _ Hp); lia.
Qed.

Lemma wide_len0 f n : wide f n -> n <= len f 0.
Proof. intros [_ Hw]. destruct (Hw 0%nat) as [Hx _]. change (2 ^ N.of_nat 0) with 1 in Hx. by rewrite N.div_1_r in Hx. Qed.

Lemma delete_range_ok f n a k (m : gmap N N) : wide f n -> n <= 2 ^ 62 -> a + k <= n ->
  exists m' : gmap N N, foldM (fun (m : gmap N N) pos => let* h := F_Read f pos in Ok (delete h m)) m (nseq a k) = Ok m' /\
    forall h, m' !! h = if decide (h ∈ G f 0 <$> nseq a k) then None else m !! h.
Proof.
  intros Hw Hn. revert m. induction k as [|k IH] using N_ind1; intros m Hk.
  - exists m. split; [done|]. intros h. by rewrite decide_False by (apply not_elem_of_nil).
  - destruct (IH m ltac:(lia)) as (m1 & E1 & H1). rewrite nseq_snoc, foldM_app, E1. cbn [bind foldM].
    pose proof Hw as [Hfn _].
    assert (HR : F_Read f (a + k) = Ok (G f 0 (a + k))).
    { rewrite <- (enc_0 (NumRows (f_n f)) (a + k)) at 1. apply (F_Read_ok f 0).
      - lia.
      - rewrite Hfn. apply leaf_slot; lia.
      - apply wide_len0 in Hw. lia. }
    rewrite HR. cbn [bind]. eexists. split; [done|]. intros h. rewrite fmap_app.
    destruct (decide (h = G f 0 (a + k))) as [->|Hne].
    + rewrite lookup_delete, decide_True; [done|]. apply elem_of_app. right. by apply elem_of_list_singleton.
    + rewrite lookup_delete_ne by done. rewrite H1. destruct (decide (h ∈ G f 0 <$> nseq a k)) as [Hin|Hin].
      * rewrite decide_True; [done|]. apply elem_of_app. by left.
      * rewrite decide_False; [done|]. intros [?|Hx]%elem_of_app; [done|]. by apply elem_of_list_singleton in Hx.
Qed.

Section Remove.
Context (H : hash -> hash -> hash).

Lemma F_FinalizeRemove_ok f n n' : wide f n -> n <= 2 ^ 62 -> n' <= n -> posmap_inv f n ->
  exists rs m, F_FinalizeRemove f n' = Ok (Forest n (f_data f) rs m) /\
    rn_hash <$> rs = (λ t : N * N, G f (N.to_nat t.1) t.2) <$> trees n' /\
    forall h p, m !! h = Some p <-> p < n' /\ G f 0 p = h.
Proof.
  intros Hw Hn Hle Hp. pose proof Hw as [Hfn Hlen]. unfold F_FinalizeRemove. rewrite Hfn.
  unfold assert_ at 1. destruct (N.leb_spec n' n); [|lia]. cbn [bind].
  destruct (delete_range_ok f n n' (n - n') (f_posmap f) Hw Hn ltac:(lia)) as (m & Em & Hm). rewrite Em. cbn [bind].
  assert (Hpm : forall h p, m !! h = Some p <-> p < n' /\ G f 0 p = h).
  { intros h p. rewrite Hm. pose proof (posmap_inj _ _ Hp) as Hinj. destruct (decide (h ∈ G f 0 <$> nseq n' (n - n'))) as [Hin|Hin].
    - split; [done|]. intros [Hlt <-]. apply elem_of_list_fmap in Hin as (q & Eq & Hq%nseq_elem).
      apply Hinj in Eq; lia.
    - rewrite (Hp h p). split; intros [Hlt Hh]; (split; [|done]); [|lia]. destruct (N.lt_ge_cases p n'); [done|].
      destruct Hin. apply elem_of_list_fmap. exists p. split; [done|]. apply nseq_elem. lia. }
  assert (Hsz := posmap_size (Forest n' (f_data f) [] m) n' Hpm). cbn [f_posmap] in Hsz. rewrite Hsz.
  rewrite N.eqb_refl. cbn [assert_ bind].
  assert (Hpw : n' < 2 ^ (NumRows n + 1)) by (rewrite pow_S; pose proof (NumRows_bound n); pose proof (pow_pos (NumRows n)); lia).
  rewrite RootPositionsFor_ok by done. cbn [bind].
  rewrite root_rows_trim by (pose proof (NumRows_mono n' n Hle); lia). fold (trees n').
  rewrite (mapM_ok _ (λ p, RNode (match F_Read f p with Ok h => h | _ => 0 end) n' p)).
  - cbn [bind]. do 2 eexists. split; [done|]. split; [|done]. rewrite <- !list_fmap_compose. apply list_fmap_ext.
    intros k t Ht%elem_of_list_lookup_2. apply trees_node in Ht as [Ht _]. unfold compose. cbn [rn_hash].
    assert (Ht' : node n t.1 t.2) by (unfold node in *; lia).
    pose proof (F_Read_ok f (N.to_nat t.1) t.2) as HR. rewrite N2Nat.id, Hfn in HR. rewrite HR; [done|done|by apply node_slot|].
    eapply wide_node; [done|]. by rewrite N2Nat.id.
  - intros p (t & -> & Ht)%elem_of_list_fmap. apply trees_node in Ht as [Ht _].
    assert (Ht' : node n t.1 t.2) by (unfold node in *; lia).
    pose proof (F_Read_ok f (N.to_nat t.1) t.2) as HR. rewrite N2Nat.id, Hfn in HR. rewrite HR; [done|done|by apply node_slot|].
    eapply wide_node; [done|]. by rewrite N2Nat.id.
Qed.

(** What the rows make of the leaves. *)
Lemma rows_spec ls ts g g' : size ls <= 2 ^ 62 -> valid_targets (size ls) ts -> ts <> [] ->
  (forall r i, node (size ls) (N.of_nat r) i -> g r i = nh H (leaf_at ls) r i) ->
  rowsrel H (size ls) (leaf_row ls ts) (N.to_nat (NumRows (size ls))) 0 g [] g' ->
  size (spec_remove ls ts) = size ls - size ts /\
  forall r i, node (size ls - size ts) (N.of_nat r) i -> g' r i = nh H (leaf_at (spec_remove ls ts)) r i.
Proof.
  intros Hn62 Hv Hne Hnode Hrel. remember (size ls) as n eqn:En.
  remember (leaf_row ls ts) as L0 eqn:EL0.
  assert (HL0 : size L0 = n) by (rewrite EL0, leaf_row_size; done).
  assert (Hdead : dead 0 L0 = ts) by (rewrite EL0; apply leaf_row_dead; by rewrite <- En).
  pose proof (dead_size L0) as Hds. rewrite Hdead, HL0 in Hds.
  assert (Hal : alive L0 < n).
  { destruct ts; [done|]. unfold size in Hds at 1. cbn [length] in Hds. lia. }
  assert (Hhold : forall i c, L0 !! i = Some (Some c) -> holds H g 0 (N.of_nat i) c).
  { intros i c Hi. rewrite EL0, leaf_row_lookup in Hi. destruct (ls !! i) as [x|] eqn:Ei; [|done]. cbn in Hi.
    destruct (decide (N.of_nat i ∈ ts)); [done|]. apply (inj Some), (inj Some) in Hi as <-. split; [done|].
    intros r y Hr0 Hy. assert (r = 0%nat) as -> by lia. change (2 ^ N.of_nat (0 - 0)) with 1 in *. assert (y = 0) as -> by lia.
    rewrite N.mul_1_r, N.add_0_r. rewrite Hnode.
    - cbn [nh]. unfold leaf_at. rewrite Nat2N.id. by apply list_lookup_total_correct.
    - unfold node. change (2 ^ N.of_nat 0) with 1. apply lookup_lt_Some in Ei. unfold size in En. lia. }
  destruct (rows_pure H n Hn62 L0 HL0 Hal (N.to_nat (NumRows n)) 0 g [] g') as (HA & _);
    [lia|by intros d ?%elem_of_nil|done| |done|].
  { intros r i _ Hi. left. rewrite !Hnode; [done| | |done]; apply (node_child n (N.of_nat r) i);
      by replace (N.of_nat r + 1) with (N.of_nat (S r)) by lia. }
  assert (Ea : alive L0 = n - size ts) by lia.
  split.
  - unfold spec_remove. rewrite <- EL0. rewrite (remove_rows_size _ 0).
    + change (2 ^ N.of_nat 0) with 1. lia.
    + rewrite HL0, En. apply pow_len.
    + intros i c Hi. apply Hhold in Hi as [Hi _]. done.
  - intros r i Hi. unfold spec_remove. rewrite <- EL0. apply HA.
    + change (rowat L0 0) with L0. rewrite HL0, En. apply pow_len.
    + change (rowat L0 0) with L0. rewrite Ea. change (2 ^ N.of_nat 0) with 1. rewrite N.mul_1_r. exact Hi.
Qed.

Lemma F_Remove_ok f ls ts : inv H f ls -> size ls <= 2 ^ 31 -> valid_targets (size ls) ts -> ts <> [] ->
  exists f', F_Remove H f ts = Ok (true, f') /\ inv H f' (spec_remove ls ts) /\
    size (f_data f') = size (f_data f) /\ (forall r, len f' r = len f r) /\
    size (spec_remove ls ts) = size ls - size ts /\
    forall x, G f' 0 (rowsact (size ls) (leaf_row ls ts) (N.to_nat (NumRows (size ls))) 0 x) = G f 0 x.
Proof.
  intros [Hw Hnode Hp Hr Hrows] Hn Hv Hne. remember (size ls) as n eqn:En. pose proof Hw as [Hfn Hlen].
  assert (Hn62 : n <= 2 ^ 62) by (assert (2 ^ 31 <= 2 ^ 62) by done; lia).
  remember (leaf_row ls ts) as L0 eqn:EL0.
  assert (HL0 : size L0 = n) by (rewrite EL0, leaf_row_size; done).
  assert (Hdead : dead 0 L0 = ts) by (rewrite EL0; apply leaf_row_dead; by rewrite <- En).
  pose proof (dead_size L0) as Hds. rewrite Hdead, HL0 in Hds.
  assert (Hal : alive L0 < n).
  { destruct ts; [done|]. unfold size in Hds at 1. cbn [length] in Hds. lia. }
  destruct (Transform_ok n L0 Hn62 HL0 ltac:(by rewrite Hdead)) as (h & Hh & Hdd & He & Ht). rewrite Hdead in Ht.
  unfold F_Remove. destruct ts as [|t0 ts0] eqn:Ets; [done|]. rewrite <- Ets in *. clear Ets Hne t0 ts0.
  rewrite Hfn. rewrite (proj2 (CheckTargetsSanity_true n ts) Hv). cbn [bind negb]. rewrite Ht. cbn [bind].
  destruct (rows_ok H n Hn L0 HL0 h Hh Hdd He Hal (N.to_nat (NumRows n)) 0 f []) as (f1 & E1 & Hs1 & Hp1 & Hrel & HC);
    [lia|done|done|by intros d ?%elem_of_nil|].
  change (N.of_nat 0) with 0 in E1. change (enc (NumRows n) (N.of_nat 1) <$> []) with (@nil N) in E1. rewrite E1. cbn [bind fst snd].
  change (size (@nil N) =? 0) with true. cbn [assert_ bind].
  assert (Hw1 : wide f1 n) by (by eapply wide_same). pose proof Hw1 as [Hfn1 _]. rewrite Hfn1.
  assert (H64 : 2 ^ 62 < two64) by done.
  rewrite sub64_small by lia. remember (n - size ts) as n' eqn:En'. assert (Ea : alive L0 = n') by lia.
  destruct (F_FinalizeRemove_ok f1 n n' Hw1 Hn62 ltac:(lia) Hp1) as (rs & m & E2 & Hrs & Hm). rewrite E2. cbn [bind].
  eexists. split; [done|].
  destruct (rows_spec ls ts (G f) (G f1)) as [Hsz HG]; rewrite <- ?En, <- ?EL0; try done.
  { intros ->. unfold size in Hds at 1. cbn [length] in Hds. lia. }
  rewrite <- En, <- En' in Hsz, HG.
  destruct Hs1 as (_ & _ & Hs1r & Hs1l).
  split; [|split; [done|split; [done|split; [done|done]]]].
  split; rewrite ?Hsz.
  - split; [done|]. intros r. change (len (set_n _ _) r) with (len f1 r). rewrite Hs1l. specialize (Hlen r).
    assert (n' / 2 ^ N.of_nat r <= n / 2 ^ N.of_nat r) by (apply N.div_le_mono; [pose proof (pow_pos (N.of_nat r)); lia|lia]). lia.
  - exact HG.
  - exact Hm.
  - unfold F_Roots. cbn [f_roots set_n]. rewrite Hrs. unfold spec_roots. rewrite Hsz. apply list_fmap_ext.
    intros k t Ht'%elem_of_list_lookup_2. apply HG. rewrite N2Nat.id. by apply trees_node.
  - cbn [set_n f_data]. rewrite Hs1r. pose proof (NumRows_mono n' n ltac:(lia)). lia.
Qed.

Lemma F_Remove_nil f : F_Remove H f [] = Ok (true, f).
Proof. done. Qed.
Lemma F_Remove_invalid f n ts : f_n f = n -> ~ valid_targets n ts -> F_Remove H f ts = Ok (false, f).
Proof.
  intros Hfn Hv. unfold F_Remove. destruct ts as [|t0 ts0] eqn:Ets; [destruct Hv; split; constructor|]. rewrite <- Ets in *.
  rewrite Hfn. destruct (CheckTargetsSanity_iff n ts) as (b & -> & Hb). cbn [bind]. destruct b; [|done].
  destruct Hv. by apply Hb.
Qed.
End Remove.
