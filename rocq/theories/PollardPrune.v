(** * PollardPrune: Roots, Prune and the constructor from roots (proofs) *)
From stdpp Require Import sorting.
From Verif Require Import Base StateModel CodecModel ForestModel PollardModel PosSpec PosFacts PathFacts MerkleSpec ForestFacts
  RowFacts TransformFacts RemoveFacts ForestInv PollardRep PollardOps PollardAdd PollardRemove PollardInit PollardCreate.
From Coq Require Import ZifyBool ZifyNat ZifyN.
Ltac Zify.zify_post_hook ::= idtac.
Ltac dlia := zify; Z.div_mod_to_equations; lia.

Lemma mapM_fmap {A B C} (f : A -> B) (k : B -> res C) (l : list A) : mapM_ (λ x, k (f x)) l = mapM_ k (f <$> l).
Proof. induction l as [|x l IH]; [done|]. cbn [mapM_ fmap list_fmap]. by rewrite IH. Qed.
Lemma foldM_fmap {A B S} (f : A -> B) (k : S -> B -> res S) (l : list A) s : foldM (λ s x, k s (f x)) s l = foldM k s (f <$> l).
Proof. revert s. induction l as [|x l IH]; intros s; [done|]. cbn [foldM fmap list_fmap]. destruct (k s (f x)); cbn [bind]; [apply IH|done..]. Qed.

Lemma P_Roots_ok p T L M g : rep p T L M -> agree p T L g -> P_Roots p = Ok ((λ t : N * N, g (N.to_nat t.1) t.2) <$> T).
Proof.
  intros HR Hg. unfold P_Roots. rewrite (mapM_fmap pr_node (P_GetHash (p_heap p))), (rp_roots _ _ _ _ HR).
  rewrite <- (mapM_fmap (λ t : N * N, L (N.to_nat t.1) t.2)). apply mapM_ok. intros [a b] Ht. cbn [fst snd].
  assert (Ht' : (N.of_nat (N.to_nat a), b) ∈ T) by (by rewrite N2Nat.id).
  destruct (rp_root _ _ _ _ HR _ _ Ht') as [l El]. rewrite El. unfold P_GetHash.
  destruct (rep_get _ _ _ _ HR _ _ _ (inT_root _ _ _ Ht') El) as [nd End]. rewrite (deref_ok _ _ _ End). cbn [bind snd].
  f_equal. rewrite <- (Hg _ _ _ (inT_root _ _ _ Ht') El). unfold hv. by rewrite End.
Qed.

(** ** Prune *)
Lemma chop_all (ls : list loc) : forall h : heap, Forall (λ l, is_Some (h !! l)) ls ->
  exists h', foldM chop_node h (Some <$> ls) = Ok h' /\ (forall l, is_Some (h' !! l) <-> is_Some (h !! l)) /\ (forall l, hv h' l = hv h l) /\
    forall l b, nc h' (Some l) b = if decide (l ∈ ls) then None else nc h (Some l) b.
Proof.
  induction ls as [|x ls IH]; intros h Hl.
  - exists h. split_and!; try done. 
  - apply Forall_cons in Hl as [[nd End] Hl]. cbn [foldM fmap list_fmap]. unfold chop_node at 1. rewrite (deref_ok _ _ _ End). cbn [bind fst snd].
    destruct (IH (<[x := INode (i_hash nd) None None]> h)) as (h' & E & H1 & H2 & H3).
    { eapply Forall_impl; [exact Hl|]. intros l Hs. apply is_Some_insert; [by rewrite End|done]. }
    exists h'. split; [done|]. split; [intros l; rewrite H1; apply is_Some_insert; by rewrite End|]. split.
    + intros l. rewrite H2, hv_insert. destruct (decide (l = x)) as [->|]; [|done]. unfold hv. by rewrite End.
    + intros l b. rewrite H3. destruct (decide (l ∈ ls)) as [Hin|Hin].
      * rewrite decide_True by (by right). done.
      * rewrite nc_insert. destruct (decide (Some l = Some x)) as [[= ->]|Hne].
        -- rewrite decide_True by left. by destruct b.
        -- rewrite decide_False; [done|]. intros [->|?]%elem_of_cons; done.
Qed.
Definition Lroot (T : list (N * N)) (L : lmap) : lmap := fun r i => if decide ((N.of_nat r, i) ∈ T) then L r i else None.
Lemma Lroot_some T L r i l : Lroot T L r i = Some l -> (N.of_nat r, i) ∈ T /\ L r i = Some l.
Proof. unfold Lroot. by destruct (decide _). Qed.

Lemma root_locs p T L M : rep p T L M -> exists ls : list loc, pr_node <$> p_roots p = Some <$> ls /\
  forall l, l ∈ ls <-> exists r i, (N.of_nat r, i) ∈ T /\ L r i = Some l.
Proof.
  intros HR. pose proof (rp_root _ _ _ _ HR) as Hroot. rewrite (rp_roots _ _ _ _ HR). clear HR.
  assert (Hg : forall T' : list (N * N), (forall t, t ∈ T' -> t ∈ T) -> exists ls : list loc, (λ t : N * N, L (N.to_nat t.1) t.2) <$> T' = Some <$> ls /\
     forall l, l ∈ ls <-> exists r i, (N.of_nat r, i) ∈ T' /\ L r i = Some l).
  { induction T' as [|[a b] T' IH]; intros Hs.
    - exists []. split; [done|]. intros l. split; [by intros ?%elem_of_nil|]. by intros (r & i & ?%elem_of_nil & _).
    - destruct IH as (ls & E & Hls); [intros; apply Hs; by right|]. destruct (Hroot (N.to_nat a) b) as [l El].
      { rewrite N2Nat.id. apply Hs. left. }
      exists (l :: ls). split; [rewrite !fmap_cons; cbn [fst snd]; by rewrite E, El|]. intros l'. rewrite elem_of_cons, Hls. split.
      + intros [->|(r & i & Hr & E')]; [exists (N.to_nat a), b; rewrite N2Nat.id; split; [left|done]|]. exists r, i. split; [by right|done].
      + intros (r & i & [[= Er ->]|Hr]%elem_of_cons & E'); [|right; eauto]. left. rewrite <- Er, Nat2N.id in El. congruence. }
  apply Hg. done.
Qed.

Lemma NumCached_none p : (forall l, l ∈ p_reach p -> rem_refs (p_heap p) l = 0) -> P_NumCachedLeaves p = 0.
Proof.
  intros Hz. unfold P_NumCachedLeaves. assert (Hall : Forall (λ l, rem_refs (p_heap p) l = 0) (elements (list_to_set (p_reach p) : gmap.gset N))).
  { apply Forall_forall. intros l Hl. apply Hz. by rewrite elem_of_elements, elem_of_list_to_set in Hl. }
  induction Hall as [|l xs Hl _ IH]; [done|]. cbn [foldr]. by rewrite Hl, IH.
Qed.
(** A pollard that consists of root nodes only. *)
Lemma bare_reach p T L M : rep p T L M -> (forall l b r i, (N.of_nat r, i) ∈ T -> L r i = Some l -> nc (p_heap p) (Some l) b = None) ->
  Some <$> p_reach p = pr_node <$> p_roots p /\ P_NumCachedLeaves p = 0.
Proof.
  intros HR Hb. destruct (root_locs p T L M HR) as (ls & Els & Hls).
  assert (E : p_reach p = ls).
  { unfold p_reach. remember 70%nat as K eqn:EK. destruct K as [|[|k]]; [done..|]. clear EK.
    change (λ r, reach (S (S k)) (p_heap p) (pr_node r)) with (reach (S (S k)) (p_heap p) ∘ pr_node). rewrite list_fmap_compose, Els.
    assert (Hin : forall l, l ∈ ls -> reach (S (S k)) (p_heap p) (Some l) = [l]).
    { intros l (r & i & Hr & El)%Hls. cbn [reach].
      destruct (rp_dom _ _ _ _ HR _ _ _ (inT_root _ _ _ Hr) El) as (Hne & _ & [nd End]).
      destruct (N.eqb_spec l rem) as [?|_]; [done|]. rewrite End.
      pose proof (Hb l false r i Hr El) as E1. pose proof (Hb l true r i Hr El) as E2. rewrite (nc_some _ _ _ false End) in E1. rewrite (nc_some _ _ _ true End) in E2. cbn [niece] in E1, E2.
      rewrite E1, E2. done. }
    clear Els Hls. induction ls as [|l ls IH]; [done|]. rewrite !fmap_cons. cbn [concat]. rewrite Hin by left. rewrite IH; [done|]. intros; apply Hin; by right. }
  split; [by rewrite E, Els|]. apply (NumCached_none p). intros l. rewrite E. intros (r & i & Hr & El)%Hls.
  unfold rem_refs. destruct (rp_dom _ _ _ _ HR _ _ _ (inT_root _ _ _ Hr) El) as (_ & _ & [nd End]). rewrite End.
  pose proof (Hb l false r i Hr El) as E1. pose proof (Hb l true r i Hr El) as E2. rewrite (nc_some _ _ _ false End) in E1. rewrite (nc_some _ _ _ true End) in E2. cbn [niece] in E1, E2.
  by rewrite E1, E2.
Qed.

Lemma Prune_ok p T L M g : rep p T L M -> agree p T L g ->
  exists p', P_Prune p = Ok p' /\ p_n p' = p_n p /\ p_posmap p' = p_posmap p /\ rep p' T (Lroot T L) (λ _, false) /\ agree p' T (Lroot T L) g /\
    size (p_reach p') = size T /\ P_NumCachedLeaves p' = 0.
Proof.
  intros HR Hg. destruct (root_locs p T L M HR) as (ls & Els & Hls). unfold P_Prune.
  rewrite (foldM_fmap pr_node chop_node), Els.
  destruct (chop_all ls (p_heap p)) as (h & E & H1 & H2 & H3).
  { apply Forall_forall. intros l (r & i & Hr & El)%Hls. by destruct (rp_dom _ _ _ _ HR _ _ _ (inT_root _ _ _ Hr) El) as (_ & _ & ?). }
  rewrite E. cbn [bind].
  assert (Hc : forall r i l b, (N.of_nat r, i) ∈ T -> L r i = Some l -> nc h (Some l) b = None).
  { intros r i l b Hr El. rewrite H3, decide_True; [done|]. apply Hls. eauto. }
  assert (Hd := rp_disj _ _ _ _ HR).
  assert (Hn0 : forall r x b, nc h (Lroot T L r x) b = None).
  { intros r x b. destruct (Lroot T L r x) as [l|] eqn:El; [|done]. apply Lroot_some in El as [Hr El]. by apply (Hc r x). }
  assert (HR' : rep (p_set_heap p h) T (Lroot T L) (λ _, false)).
  { split; cbn [p_set_heap p_heap p_roots p_next].
    - done.
    - rewrite (rp_roots _ _ _ _ HR). apply list_fmap_ext. intros x [a b] Hx%elem_of_list_lookup_2. cbn [fst snd]. unfold Lroot. rewrite N2Nat.id. by rewrite decide_True.
    - intros r i Hr. unfold Lroot. rewrite decide_True by done. by apply (rp_root _ _ _ _ HR).
    - intros r i l Hi [_ El]%Lroot_some. destruct (rp_dom _ _ _ _ HR _ _ _ Hi El) as (? & ? & ?). split_and!; try done. by apply H1.
    - intros r i r' i' l Hi Hi' [_ El]%Lroot_some [_ El']%Lroot_some. by apply (rp_inj _ _ _ _ HR _ _ _ _ _ Hi Hi' El El').
    - intros r x Hx. rewrite Hn0. unfold Lroot. rewrite decide_False; [done|]. by apply kid_not_root.
    - intros i Hi. by rewrite Hn0.
    - intros i Hi. by rewrite Hn0.
    - apply HR. }
  destruct (bare_reach _ _ _ _ HR') as [Er Ec].
  { intros l b r i Hr [_ El]%Lroot_some. cbn [p_set_heap p_heap]. by apply (Hc r i). }
  rewrite Ec. cbn [N.eqb assert_ bind]. eexists. split; [done|]. split; [done|]. split; [done|]. split; [done|]. split.
  - intros r i l Hi [_ El]%Lroot_some. cbn [p_set_heap p_heap]. rewrite H2. by apply Hg.
  - split; [|done]. unfold size. f_equal. apply (f_equal length) in Er. rewrite !fmap_length in Er. rewrite Er. cbn [p_set_heap p_roots].
    pose proof (f_equal length (rp_roots _ _ _ _ HR)) as El. by rewrite !fmap_length in El.
Qed.

(** ** The constructor from roots *)
Definition Lrest (T : list (N * N)) : lmap := fun r i => (λ x : nat * (N * N), 1 + N.of_nat x.1) <$> list_find (λ t, t = (N.of_nat r, i)) T.
Lemma Lrest_some T r i l : Lrest T r i = Some l -> exists x, T !! x = Some (N.of_nat r, i) /\ l = 1 + N.of_nat x.
Proof. unfold Lrest. intros ([x t] & (Hl & Et & _)%list_find_Some & E)%fmap_Some. exists x. cbn [fst] in E. by subst. Qed.
Lemma Lrest_at T x r i : NoDup T -> T !! x = Some (N.of_nat r, i) -> Lrest T r i = Some (1 + N.of_nat x).
Proof.
  intros Hnd Hx. unfold Lrest. destruct (list_find (λ t, t = (N.of_nat r, i)) T) as [[y t]|] eqn:E.
  - apply list_find_Some in E as (Hy & -> & _). cbn. by rewrite (NoDup_lookup T x y _ Hnd Hx Hy).
  - apply list_find_None in E. rewrite Forall_forall in E. exfalso. by apply (E _ (elem_of_list_lookup_2 _ _ _ Hx)).
Qed.
Lemma restore_loop n (rs ps : list N) : length rs = length ps -> forall k, (k <= length rs)%nat ->
  exists p, foldM (fun p i => let* h := vec_at rs i in let* pos := vec_at ps i in let '(p', l) := alloc p (INode h None None) in
           Ok (p_set_roots p' (p_roots p' ++ [PRoot (Some l) pos vflag0]))) (Pollard_new n) (nseq 0 (N.of_nat k)) = Ok p /\
    p_n p = n /\ p_next p = 1 + N.of_nat k /\ p_posmap p = ∅ /\ pr_node <$> p_roots p = (λ x : nat, Some (1 + N.of_nat x)) <$> seq 0 k /\
    forall x h, (x < k)%nat -> rs !! x = Some h -> p_heap p !! (1 + N.of_nat x) = Some (INode h None None).
Proof.
  intros El k. induction k as [|k IH]; intros Hk.
  - exists (Pollard_new n). split_and!; try done. lia.
  - destruct IH as (p & E & Hn & Hx & Hm & Hr & Hh); [lia|]. replace (N.of_nat (S k)) with (N.of_nat k + 1) by lia. rewrite nseq_snoc, foldM_app, E.
    cbn [bind foldM]. destruct (lookup_lt_is_Some_2 rs k) as [h Eh]; [lia|]. destruct (lookup_lt_is_Some_2 ps k) as [q Eq]; [lia|].
    unfold vec_at. rewrite N.add_0_l, Nat2N.id, Eh, Eq. cbn [bind]. unfold alloc. cbn [bind]. eexists. split; [done|].
    cbn [p_set_roots p_n p_next p_posmap p_roots p_heap]. split_and!; try done; [lia|..].
    + rewrite fmap_app, Hr, seq_S, fmap_app. cbn [fmap list_fmap pr_node Nat.add]. by rewrite Hx.
    + intros x h' Hlt Ex. rewrite Hx. destruct (decide (x = k)) as [->|Hne].
      * rewrite heap_eq. congruence.
      * rewrite heap_ne by lia. apply Hh; [lia|done].
Qed.

Lemma Restore_ok n (Hn : n <= 2 ^ 62) g rs : rs = (λ t : N * N, g (N.to_nat t.1) t.2) <$> trees n ->
  exists p, Pollard_restore rs n = Ok p /\ p_n p = n /\ p_posmap p = ∅ /\ rep p (trees n) (Lrest (trees n)) (λ _, false) /\ agree p (trees n) (Lrest (trees n)) g.
Proof.
  intros Ers. assert (Elen : length rs = length (trees n)) by (rewrite Ers; apply fmap_length).
  unfold Pollard_restore. rewrite NumRoots_ok.
  assert (Esz : size rs = N.of_nat (length (root_rows (N.to_nat (NumRows n)) n))).
  { unfold size. rewrite Elen. unfold trees. by rewrite fmap_length. }
  rewrite Esz, N.eqb_refl. cbn [assert_ bind]. rewrite RootPositions_ok by done. fold (trees n). cbn [bind].
  assert (Esz2 : size ((λ t : N * N, enc (NumRows n) t.1 t.2) <$> trees n) = N.of_nat (length (root_rows (N.to_nat (NumRows n)) n))).
  { rewrite <- Esz. unfold size. by rewrite fmap_length, Elen. }
  rewrite Esz2, N.eqb_refl. cbn [assert_ bind]. rewrite <- Esz.
  destruct (restore_loop n rs ((λ t : N * N, enc (NumRows n) t.1 t.2) <$> trees n) ltac:(by rewrite fmap_length) (length rs) ltac:(done)) as (p & E & Hpn & Hx & Hm & Hr & Hh).
  exists p. split; [exact E|]. split; [done|]. split; [done|]. pose proof (trees_nodup n) as Hnd.
  assert (Hget : forall r i l, Lrest (trees n) r i = Some l -> exists x, (x < length rs)%nat /\ trees n !! x = Some (N.of_nat r, i) /\ l = 1 + N.of_nat x /\
     p_heap p !! l = Some (INode (g r i) None None)).
  { intros r i l (x & Ht & ->)%Lrest_some. exists x. assert (Hlt : (x < length rs)%nat) by (rewrite Elen; by eapply lookup_lt_Some). split_and!; try done.
    apply Hh; [done|]. rewrite Ers, list_lookup_fmap, Ht. cbn [fmap option_fmap option_map fst snd]. by rewrite Nat2N.id. }
  assert (Hn0 : forall r i b, nc (p_heap p) (Lrest (trees n) r i) b = None).
  { intros r i b. destruct (Lrest (trees n) r i) as [l|] eqn:El; [|done]. destruct (Hget r i l El) as (x & _ & _ & _ & Ex). rewrite (nc_some _ _ _ _ Ex). by destruct b. }
  split.
  - split.
    + apply trees_disj.
    + rewrite Hr. apply list_eq. intros x. rewrite !list_lookup_fmap. destruct (trees n !! x) as [[a b]|] eqn:Et.
      * rewrite lookup_seq_lt by (rewrite Elen; by eapply lookup_lt_Some). cbn [fmap option_fmap option_map fst snd]. 
        rewrite (Lrest_at _ x); [done|done|by rewrite N2Nat.id].
      * rewrite lookup_seq_ge; [done|]. rewrite Elen. by apply lookup_ge_None.
    + intros r i (x & Ht)%elem_of_list_lookup. by rewrite (Lrest_at _ x).
    + intros r i l Hi El. destruct (Hget r i l El) as (x & Hlt & _ & -> & Ex). split; [unfold rem; lia|]. split; [rewrite Hx; lia|by rewrite Ex].
    + intros r i r' i' l Hi Hi' (x & Ht & E1)%Lrest_some (x' & Ht' & E2)%Lrest_some. assert (x = x') as <- by lia. rewrite Ht in Ht'. injection Ht' as Er ->. split; [lia|done].
    + intros r x Hin. rewrite Hn0. destruct (Lrest (trees n) r x) as [l|] eqn:El; [|done]. exfalso. apply Lrest_some in El as (y & Ht & _).
      apply elem_of_list_lookup_2 in Ht. by apply (kid_not_root _ _ _ (trees_disj n) Hin).
    + intros i Hi. by rewrite Hn0.
    + intros i Hi. by rewrite Hn0.
    + rewrite Hx. unfold rem. lia.
  - intros r i l Hi El. destruct (Hget r i l El) as (x & _ & _ & _ & Ex). unfold hv. by rewrite Ex.
Qed.

Lemma P_Roots_at p T L M g : rep p T L M -> (forall r i l, (N.of_nat r, i) ∈ T -> L r i = Some l -> hv (p_heap p) l = g r i) ->
  P_Roots p = Ok ((λ t : N * N, g (N.to_nat t.1) t.2) <$> T).
Proof.
  intros HR Hg. rewrite (P_Roots_ok p T L M (λ r i, match L r i with Some l => hv (p_heap p) l | None => 0 end) HR).
  - f_equal. apply list_fmap_ext. intros x [a b] Hx%elem_of_list_lookup_2. cbn [fst snd].
    assert (Ht : (N.of_nat (N.to_nat a), b) ∈ T) by (by rewrite N2Nat.id). destruct (rp_root _ _ _ _ HR _ _ Ht) as [l El]. rewrite El. by apply Hg.
  - intros r i l _ ->. done.
Qed.
