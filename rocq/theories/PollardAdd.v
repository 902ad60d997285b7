(** * PollardAdd: adding leaves to a Pollard (proofs) *)
From stdpp Require Import sorting.
From Verif Require Import Base StateModel ForestModel PollardModel PosmapFacts PosSpec PosFacts PathFacts MerkleSpec ForestFacts RowFacts
  TransformFacts RemoveFacts ForestInv AddFacts PollardRep PollardOps.
From Coq Require Import ZifyBool ZifyNat ZifyN.
Ltac Zify.zify_post_hook ::= idtac.
Ltac dlia := zify; Z.div_mod_to_equations; lia.

(** ** Sets of trees *)
Lemma inT_app A B r x : inT (A ++ B) r x <-> inT A r x \/ inT B r x.
Proof.
  unfold inT. setoid_rewrite elem_of_app. split.
  - intros (t & [?|?] & ?); [left|right]; eauto.
  - intros [(t & ? & ?)|(t & ? & ?)]; eauto.
Qed.
Lemma disj_app_l A B : disj (A ++ B) -> disj A.
Proof. intros Hd t t' r i H1 H2. apply Hd; apply elem_of_app; by left. Qed.
Lemma disj_app_r A B : disj (A ++ B) -> disj B.
Proof. intros Hd t t' r i H1 H2. apply Hd; apply elem_of_app; by right. Qed.
(** A node of a tree of [A] that is also a root is a root of [A]. *)
Lemma root_in_app A B r x : disj (A ++ B) -> inT A r x -> (N.of_nat r, x) ∈ A ++ B <-> (N.of_nat r, x) ∈ A.
Proof.
  intros Hd (t & Ht & Hu). split; [|intros ?; apply elem_of_app; by left]. intros Hr.
  by rewrite <- (Hd t _ r x (proj2 (elem_of_app _ _ _) (or_introl Ht)) Hr Hu (under_root r x)).
Qed.
Lemma root_in_app_r A B r x : disj (A ++ B) -> inT B r x -> (N.of_nat r, x) ∈ A ++ B <-> (N.of_nat r, x) ∈ B.
Proof.
  intros Hd (t & Ht & Hu). split; [|intros ?; apply elem_of_app; by right]. intros Hr.
  by rewrite <- (Hd t _ r x (proj2 (elem_of_app _ _ _) (or_intror Ht)) Hr Hu (under_root r x)).
Qed.
Lemma hp_app A B r x : disj (A ++ B) -> inT A r x -> hp (A ++ B) r x = hp A r x.
Proof.
  intros Hd Hx. pose proof (root_in_app A B r x Hd Hx) as Hr. unfold hp. destruct (decide (_ ∈ A ++ B)) as [H1|H1], (decide (_ ∈ A)) as [H2|H2]; try done.
  - by apply Hr in H1.
  - by apply Hr in H2.
Qed.
Lemma hp_app_r A B r x : disj (A ++ B) -> inT B r x -> hp (A ++ B) r x = hp B r x.
Proof.
  intros Hd Hx. pose proof (root_in_app_r A B r x Hd Hx) as Hr. unfold hp. destruct (decide (_ ∈ A ++ B)) as [H1|H1], (decide (_ ∈ B)) as [H2|H2]; try done.
  - by apply Hr in H1.
  - by apply Hr in H2.
Qed.
Lemma inT_one t r x : inT [t] r x <-> under t r x.
Proof. unfold inT. setoid_rewrite elem_of_list_singleton. split; [by intros (? & -> & ?)|eauto]. Qed.
Lemma inT_two t u r x : inT [t; u] r x <-> under t r x \/ under u r x.
Proof. change [t; u] with ([t] ++ [u]). by rewrite inT_app, !inT_one. Qed.

Lemma under_merge r m r' x : (under (N.of_nat (S r), m) r' x <-> (r' = S r /\ x = m) \/ under (N.of_nat r, 2 * m) r' x \/ under (N.of_nat r, 2 * m + 1) r' x).
Proof.
  split.
  - intros [Hr Hu]. cbn [fst snd] in *. destruct (decide (r' = S r)) as [->|Hne].
    + left. split; [done|]. rewrite N.sub_diag in Hu. change (2 ^ 0) with 1 in Hu. by rewrite N.div_1_r in Hu.
    + right. replace (N.of_nat (S r) - N.of_nat r') with (N.of_nat r - N.of_nat r' + 1) in Hu by lia. rewrite div_pow_S in Hu.
      unfold under. cbn [fst snd]. remember (x / 2 ^ (N.of_nat r - N.of_nat r')) as y. clear Heqy.
      destruct (two_half y) as [E|E]; rewrite Hu in E; [left|right]; split; (done || lia).
  - intros [[-> ->]|[[Hr Hu]|[Hr Hu]]]; [apply under_root|..]; cbn [fst snd] in *; (split; cbn [fst snd]; [lia|]);
      replace (N.of_nat (S r) - N.of_nat r') with (N.of_nat r - N.of_nat r' + 1) by lia; rewrite div_pow_S, Hu; dlia.
Qed.
Definition above (r : nat) (T0 : list (N * N)) : Prop := forall t, t ∈ T0 -> N.of_nat r < t.1.
Lemma disj_merge T0 r m : disj (T0 ++ [(N.of_nat r, 2 * m); (N.of_nat r, 2 * m + 1)]) -> above r T0 -> disj (T0 ++ [(N.of_nat (S r), m)]).
Proof.
  intros Hd Hab. assert (Hx : forall t r' x, t ∈ T0 -> under t r' x -> under (N.of_nat (S r), m) r' x -> False).
  { intros t r' x Ht Hu Hm. pose proof (Hab t Ht) as Hrow.
    assert (H1 : forall u r'' y, u.1 = N.of_nat r -> u ∈ [(N.of_nat r, 2 * m); (N.of_nat r, 2 * m + 1)] -> under u r'' y -> under t r'' y -> False).
    { intros u r'' y Hu0 Hu1 Hu2 Hu3. assert (t = u) as -> by (apply (Hd t u r'' y); [apply elem_of_app; by left|apply elem_of_app; by right|done|done]).
      lia. }
    apply under_merge in Hm as [[-> ->]|[Hm|Hm]].
    - apply (H1 (N.of_nat r, 2 * m) r (2 * m)); [done|left|apply under_root|]. apply under_kid. by rewrite (proj1 (half_2 m)).
    - by apply (H1 (N.of_nat r, 2 * m) r' x); [|left|..].
    - by apply (H1 (N.of_nat r, 2 * m + 1) r' x); [|right; left|..]. }
  intros t t' r' x [Ht|Ht%elem_of_list_singleton]%elem_of_app [Ht'|Ht'%elem_of_list_singleton]%elem_of_app Hu Hu'.
  - apply (Hd t t' r' x); [apply elem_of_app; by left|apply elem_of_app; by left|done|done].
  - exfalso. subst t'. by eapply Hx.
  - exfalso. subst t. by eapply Hx.
  - congruence.
Qed.

(** ** A new leaf *)
Lemma nc_old h l nd o b : (o = Some l -> False) -> nc (<[l := nd]> h) o b = nc h o b.
Proof. intros Hne. rewrite nc_insert. by rewrite decide_False. Qed.

Lemma div_pow_half i r : i / 2 ^ N.of_nat (S r) = i / 2 ^ N.of_nat r / 2.
Proof. rewrite Nat2N.inj_succ, N.pow_succ_r', N.mul_comm. symmetry. apply N.div_div; [apply N.pow_nonzero; done|done]. Qed.
Lemma inT_down T r i : inT T r (i / 2 ^ N.of_nat r) -> inT T 0 i.
Proof.
  induction r as [|r IH]; [change (2 ^ N.of_nat 0) with 1; by rewrite N.div_1_r|]. rewrite div_pow_half. intros Hi. apply IH. by apply inT_kid.
Qed.
Definition Lset (L : lmap) (r : nat) (i : N) (l : loc) : lmap := fun r' x => if (r' =? r)%nat && (x =? i) then Some l else L r' x.
Lemma Lset_eq L r i l : Lset L r i l r i = Some l.
Proof. unfold Lset. by rewrite Nat.eqb_refl, N.eqb_refl. Qed.
Lemma Lset_ne L r i l r' x : (r' = r /\ x = i -> False) -> Lset L r i l r' x = L r' x.
Proof. intros Hne. unfold Lset. destruct (Nat.eqb_spec r' r); [|done]. destruct (N.eqb_spec x i); [|done]. exfalso. by apply Hne. Qed.

(** Only what proves a remembered leaf is present: every node below a root has a remembered leaf below its parent. *)
Definition tight (T : list (N * N)) (L : lmap) (M : N -> bool) : Prop :=
  forall r x, inT T (S r) (x / 2) -> is_Some (L r x) -> exists i, M i = true /\ i / 2 ^ N.of_nat (S r) = x / 2.

Lemma NewLeaf_ok p T L M g (h : hash) (b : bool) n : p_n p = n -> rep p T L M -> agree p T L g -> disj (T ++ [(0, n)]) -> ~ inT T 0 n -> g 0%nat n = h ->
  exists p' x, P_NewLeaf p (h, b) = Ok p' /\ p_n p' = n /\ p_roots p' = p_roots p ++ [PRoot (Some x) n vflag0] /\
    p_posmap p' = (if b then <[h := n]> (p_posmap p) else p_posmap p) /\ hv (p_heap p') x = h /\
    rep p' (T ++ [(0, n)]) (Lset L 0 n x) (fun i => if i =? n then b else M i) /\ agree p' (T ++ [(0, n)]) (Lset L 0 n x) g /\
    (tight T L M -> tight (T ++ [(0, n)]) (Lset L 0 n x) (fun i => if i =? n then b else M i)).
Proof.
  intros Hpn HR Hg Hd Hfresh Hgn. unfold P_NewLeaf, alloc. cbn [fst snd]. rewrite Hpn.
  remember (p_next p) as x eqn:Ex.
  remember (INode h (if b then Some rem else None) None) as nd eqn:End.
  remember (<[x := nd]> (p_heap p)) as hp' eqn:Eh.
  remember (Pollard n hp' (x + 1) (p_roots p ++ [PRoot (Some x) n vflag0]) (if b then <[h := n]> (p_posmap p) else p_posmap p)) as p' eqn:Ep'.
  exists p', x. split; [rewrite Ep'; by destruct b|].
  assert (Eph : p_heap p' = hp') by (by rewrite Ep').
  assert (Hin : forall r i, inT (T ++ [(0, n)]) r i -> inT T r i \/ (r = 0%nat /\ i = n)).
  { intros r i [?|Hu%inT_one]%inT_app; [by left|]. right. destruct Hu as [Hr Hu]. cbn [fst snd] in *.
    assert (r = 0%nat) as -> by lia. change (2 ^ (0 - N.of_nat 0)) with 1 in Hu. by rewrite N.div_1_r in Hu. }
  assert (Hold : forall r i, inT T r i -> (r = 0%nat /\ i = n) -> False) by (intros r i Hi [-> ->]; done).
  assert (Hlt : forall r i l, inT T r i -> L r i = Some l -> l <> x).
  { intros r i l Hi Hl ->. destruct (rp_dom _ _ _ _ HR _ _ _ Hi Hl) as (_ & ? & _). lia. }
  assert (Hnew : (N.of_nat 0, n) ∈ T ++ [(0, n)]) by (apply elem_of_app; right; left).
  assert (Hhpn : hp (T ++ [(0, n)]) 0 n = n) by (by apply hp_root).
  split; [by rewrite Ep'|]. split; [by rewrite Ep'|]. split; [by rewrite Ep'|].
  split; [rewrite Eph, Eh, hv_insert, decide_True, End by done; done|].
  split; [split|split].
  - done.
  - rewrite Ep'. cbn [p_roots]. rewrite !fmap_app. rewrite (rp_roots _ _ _ _ HR). f_equal.
    + apply list_fmap_ext. intros k t Ht%elem_of_list_lookup_2. symmetry. apply Lset_ne. apply Hold, inT_root. rewrite N2Nat.id. by destruct t.
    + cbn [fmap list_fmap fst snd pr_node]. change (N.to_nat 0) with 0%nat. by rewrite Lset_eq.
  - intros r i [Hr|Hr%elem_of_list_singleton]%elem_of_app.
    + rewrite Lset_ne by (apply Hold; by apply inT_root). by apply (rp_root _ _ _ _ HR).
    + injection Hr as Hr ->. assert (r = 0%nat) as -> by lia. by rewrite Lset_eq.
  - intros r i l Hi Hl. rewrite Ep'. cbn [p_next p_heap]. pose proof (rp_next _ _ _ _ HR).
    destruct (Hin r i Hi) as [Hi'|[-> ->]].
    + rewrite Lset_ne in Hl by (by apply Hold). destruct (rp_dom _ _ _ _ HR _ _ _ Hi' Hl) as (? & ? & ?).
      split; [done|]. split; [lia|]. rewrite Eh, heap_ne by (apply not_eq_sym; by eapply Hlt). done.
    + rewrite Lset_eq in Hl. injection Hl as <-. split; [lia|]. split; [lia|]. rewrite Eh, heap_eq. done.
  - intros r i r' i' l Hi Hi' Hl Hl'. destruct (Hin r i Hi) as [Hi1|[-> ->]], (Hin r' i' Hi') as [Hi2|[-> ->]].
    + rewrite Lset_ne in Hl by (by apply Hold). rewrite Lset_ne in Hl' by (by apply Hold). by eapply (rp_inj _ _ _ _ HR).
    + rewrite Lset_ne in Hl by (by apply Hold). rewrite Lset_eq in Hl'. injection Hl' as <-. by apply Hlt in Hl.
    + rewrite Lset_ne in Hl' by (by apply Hold). rewrite Lset_eq in Hl. injection Hl as <-. by apply Hlt in Hl'.
    + done.
  - intros r y Hy. destruct (Hin _ _ Hy) as [Hy'|[? _]]; [|done]. rewrite Eph.
    assert (Hhp := inT_hp _ _ _ (rp_disj _ _ _ _ HR) Hy').
    rewrite hp_app by done. rewrite !Lset_ne by (apply Hold; (by apply inT_kid) || done).
    rewrite Eh, nc_old by (intros E; by apply Hlt in E). by apply (rp_kid _ _ _ _ HR).
  - intros i Hi. rewrite Eph. destruct (Hin _ _ Hi) as [Hy'|[_ ->]].
    + assert (Hhp := inT_hp _ _ _ (rp_disj _ _ _ _ HR) Hy'). rewrite hp_app by done. rewrite Lset_ne by (by apply Hold).
      rewrite Eh, nc_old by (intros E; by apply Hlt in E). destruct (N.eqb_spec i n) as [->|]; [done|]. by apply (rp_leaf _ _ _ _ HR).
    + rewrite Hhpn, Lset_eq, N.eqb_refl, Eh, nc_insert, decide_True by done. rewrite End. by destruct b.
  - intros i Hi. rewrite Eph. destruct (Hin _ _ Hi) as [Hy'|[_ ->]].
    + assert (Hhp := inT_hp _ _ _ (rp_disj _ _ _ _ HR) Hy'). rewrite hp_app by done. rewrite Lset_ne by (by apply Hold).
      rewrite Eh, nc_old by (intros E; by apply Hlt in E). by apply (rp_leaf' _ _ _ _ HR).
    + rewrite Hhpn, Lset_eq, Eh, nc_insert, decide_True by done. by rewrite End.
  - rewrite Ep'. cbn [p_next]. pose proof (rp_next _ _ _ _ HR). lia.
  - intros r i l Hi Hl. rewrite Eph. destruct (Hin r i Hi) as [Hi'|[-> ->]].
    + rewrite Lset_ne in Hl by (by apply Hold). rewrite Eh, hv_insert, decide_False by (by eapply Hlt). by apply Hg.
    + rewrite Lset_eq in Hl. injection Hl as <-. rewrite Eh, hv_insert, decide_True by done. by rewrite End, Hgn.
  - intros Ht r y Hy Hl. destruct (Hin _ _ Hy) as [Hy'|[? _]]; [|done]. rewrite Lset_ne in Hl by (apply Hold; by apply inT_kid).
    destruct (Ht r y Hy' Hl) as (i & Hi & Ei). exists i. split; [|done]. destruct (N.eqb_spec i n) as [->|]; [|done]. exfalso. apply Hfresh.
    rewrite <- Ei in Hy'. apply inT_down in Hy'. exact Hy'.
Qed.

(** ** Merging two roots *)
Lemma MergeRoot_ok p T0 L M g r m pos ph : let T := T0 ++ [(N.of_nat r, 2 * m); (N.of_nat r, 2 * m + 1)] in
  rep p T L M -> agree p T L g -> above r T0 -> g (S r) m = ph ->
  exists p' L' rs x, P_MergeRoot p pos ph = Ok p' /\ p_n p' = p_n p /\ p_posmap p' = p_posmap p /\
    p_roots p' = rs ++ [PRoot (Some x) pos vflag0] /\ hv (p_heap p') x = ph /\
    rep p' (T0 ++ [(N.of_nat (S r), m)]) L' M /\ agree p' (T0 ++ [(N.of_nat (S r), m)]) L' g /\
    (tight T L M -> tight (T0 ++ [(N.of_nat (S r), m)]) L' M) /\ (forall i l, L' 0%nat i = Some l -> L 0%nat i = Some l).
Proof.
  intros T HR Hg Hab Hph. pose proof (rp_disj _ _ _ _ HR) as Hd. pose proof (disj_merge T0 r m Hd Hab) as Hd'.
  remember (T0 ++ [(N.of_nat (S r), m)]) as T' eqn:ET'.
  assert (HaR : (N.of_nat r, 2 * m) ∈ T) by (apply elem_of_app; right; left).
  assert (HbR : (N.of_nat r, 2 * m + 1) ∈ T) by (apply elem_of_app; right; right; left).
  destruct (rp_root _ _ _ _ HR _ _ HaR) as [a Ea]. destruct (rp_root _ _ _ _ HR _ _ HbR) as [b Eb].
  assert (HaT := inT_root _ _ _ HaR). assert (HbT := inT_root _ _ _ HbR).
  assert (Hab' : a <> b). { intros ->. destruct (rp_inj _ _ _ _ HR _ _ _ _ _ HaT HbT Ea Eb). lia. }
  (* the last two roots *)
  pose proof (rp_roots _ _ _ _ HR) as Hroots. unfold T in Hroots. rewrite fmap_app in Hroots. cbn [fmap list_fmap fst snd] in Hroots.
  rewrite Nat2N.id, Ea, Eb in Hroots. apply fmap_app_inv in Hroots as (rs & tl & Ers & Etl & Efr).
  destruct tl as [|lt [|rt [|? ?]]]; try (cbn in Etl; done). cbn [fmap list_fmap] in Etl. injection Etl as Elt Ert.
  unfold P_MergeRoot. rewrite Efr. change [lt; rt] with ([lt] ++ [rt]). rewrite app_assoc, vec_back_snoc. cbn [bind].
  rewrite vec_pop_snoc. cbn [bind]. rewrite vec_back_snoc. cbn [bind]. rewrite vec_pop_snoc. cbn [bind].
  rewrite <- Elt, <- Ert.
  destruct (swap_nieces_ok (p_heap p) a b) as (h1 & Eh1 & Hn1 & Hv1 & Hi1);
    [by apply (rep_get p T L M HR r (2 * m))|by apply (rep_get p T L M HR r (2 * m + 1))|done|].
  rewrite Eh1. cbn [bind]. unfold alloc. cbn [p_set_heap p_n p_heap p_next p_roots p_posmap].
  remember (p_next p) as x eqn:Ex. remember (<[x := INode ph (Some a) (Some b)]> h1) as h2 eqn:Eh2.
  remember (Pollard (p_n p) h2 (x + 1) (rs ++ [PRoot (Some x) pos vflag0]) (p_posmap p)) as p1 eqn:Ep1.
  (* coordinates *)
  assert (Hin : forall r' y, inT T' r' y -> (r' = S r /\ y = m) \/ inT T0 r' y \/ inT [(N.of_nat r, 2 * m); (N.of_nat r, 2 * m + 1)] r' y).
  { intros r' y Hy. rewrite ET' in Hy. apply inT_app in Hy as [?|Hy%inT_one]; [auto|]. apply under_merge in Hy as [?|Hy]; [auto|].
    right; right. by apply inT_two. }
  assert (HinT : forall r' y, inT T' r' y -> (r' = S r /\ y = m) \/ inT T r' y).
  { intros r' y Hy. destruct (Hin r' y Hy) as [?|Hy']; [by left|]. right. by apply inT_app. }
  assert (HmT : ~ inT T (S r) m).
  { intros Hm. apply (kid_not_root T r (2 * m) Hd); [by rewrite (proj1 (half_2 m))|done]. }
  assert (Hold : forall r' y, inT T r' y -> (r' = S r /\ y = m) -> False) by (intros ? ? ? [-> ->]; done).
  assert (HTT' : forall r' y, inT T r' y -> inT T' r' y).
  { intros r' y Hy. rewrite ET'. apply inT_app in Hy as [Hy|Hy]; apply inT_app; [by left|right]. apply inT_one, under_merge. right. by apply inT_two. }
  assert (HmR : (N.of_nat (S r), m) ∈ T') by (rewrite ET'; apply elem_of_app; right; left).
  (* niece holders *)
  assert (Hhp : forall r' y, inT T r' y -> hp T' r' y = (if decide (r' = r /\ y / 2 = m) then sib y else hp T r' y)).
  { intros r' y Hy. destruct (decide (r' = r /\ y / 2 = m)) as [[-> Hy2]|Hne].
    - apply hp_kid; [done|]. rewrite Hy2. by apply inT_root.
    - destruct (proj1 (inT_app _ _ _ _) Hy) as [Hy0|Hy0].
      + unfold T. rewrite ET', !hp_app; [done..|by rewrite <- ET'|done].
      + assert (Hr' : (r' < r)%nat).
        { apply inT_two in Hy0 as [[Hr0 Hu]|[Hr0 Hu]]; cbn [fst snd] in *; (destruct (decide (r' = r)) as [->|]; [|lia]);
            rewrite N.sub_diag in Hu; change (2 ^ 0) with 1 in Hu; rewrite N.div_1_r in Hu; exfalso; apply Hne; (split; [done|dlia]). }
        assert (HyS : inT T (S r') (y / 2)).
        { apply inT_app. right. apply inT_two in Hy0 as [Hy0|Hy0]; apply inT_two; [left|right]; apply under_up in Hy0; cbn [fst]; (done || lia). }
        rewrite (hp_kid T r' y) by done. apply hp_kid; [done|]. by apply HTT'. }
  assert (Hlt : forall r' i l, inT T r' i -> L r' i = Some l -> l <> x).
  { intros r' i l Hi Hl ->. destruct (rp_dom _ _ _ _ HR _ _ _ Hi Hl) as (_ & ? & _). lia. }
  (* the nieces after the swap *)
  assert (Hnc : forall r' y c, inT T r' y -> nc h2 (L r' (hp T' r' y)) c = nc (p_heap p) (L r' (hp T r' y)) c).
  { intros r' y c Hy. assert (Hy' := inT_hp _ _ _ Hd Hy). assert (HyT' : inT T r' (hp T' r' y)).
    { destruct (HinT _ _ (inT_hp _ _ _ Hd' (HTT' _ _ Hy))) as [[-> E]|?]; [|done]. exfalso.
      rewrite Hhp in E by done. rewrite decide_False in E by lia. rewrite E in Hy'. done. }
    rewrite Eh2, nc_old by (intros E; by apply Hlt in E). rewrite Hn1, Hhp by done.
    destruct (decide (r' = r /\ y / 2 = m)) as [[-> Hym]|Hne].
    - destruct (two_half y) as [Ey|Ey]; rewrite Hym in Ey; subst y.
      + rewrite (proj1 (sib_2 m)), (hp_root T r (2 * m)), Ea, Eb by done.
        rewrite decide_False by congruence. by rewrite decide_True.
      + rewrite (proj2 (sib_2 m)), (hp_root T r (2 * m + 1)), Ea, Eb by done. by rewrite decide_True.
    - rewrite decide_False; [rewrite decide_False; [done|]|].
      + intros E. destruct (rp_inj _ _ _ _ HR _ _ _ _ _ Hy' HbT E Eb) as [-> E2]. apply Hne. split; [done|].
        rewrite <- (hp_half T r y), E2. apply half_2.
      + intros E. destruct (rp_inj _ _ _ _ HR _ _ _ _ _ Hy' HaT E Ea) as [-> E2]. apply Hne. split; [done|].
        rewrite <- (hp_half T r y), E2. apply half_2. }
  assert (HinThp : forall r' y, inT T r' y -> inT T r' (hp T' r' y)).
  { intros r' y Hy. rewrite Hhp by done. destruct (decide (r' = r /\ y / 2 = m)) as [[-> Hym]|Hne]; [|by apply inT_hp].
    destruct (two_half y) as [Ey|Ey]; rewrite Hym in Ey; subst y; [by rewrite (proj1 (sib_2 m))|by rewrite (proj2 (sib_2 m))]. }
  assert (HR1 : rep p1 T' (Lset L (S r) m x) M).
  { assert (Eph : p_heap p1 = h2) by (by rewrite Ep1). split.
    - done.
    - rewrite Ep1, ET'. cbn [p_roots]. rewrite !fmap_app, <- Ers. f_equal.
      + apply list_fmap_ext. intros k t Ht%elem_of_list_lookup_2. symmetry. apply Lset_ne. apply Hold, inT_root. rewrite N2Nat.id.
        apply elem_of_app. left. by destruct t.
      + cbn [fmap list_fmap fst snd pr_node]. rewrite Nat2N.id. by rewrite Lset_eq.
    - intros r' i Hr. rewrite ET' in Hr. apply elem_of_app in Hr as [Hr|Hr%elem_of_list_singleton].
      + assert (Hr2 : (N.of_nat r', i) ∈ T) by (apply elem_of_app; by left).
        rewrite Lset_ne by (apply Hold; by apply inT_root). by apply (rp_root _ _ _ _ HR).
      + injection Hr as Hr ->. assert (r' = S r) as -> by lia. by rewrite Lset_eq.
    - intros r' i l Hi Hl. rewrite Ep1. cbn [p_next p_heap]. pose proof (rp_next _ _ _ _ HR).
      destruct (HinT r' i Hi) as [[-> ->]|Hi'].
      + rewrite Lset_eq in Hl. injection Hl as <-. split; [lia|]. split; [lia|]. rewrite Eh2, heap_eq. done.
      + rewrite Lset_ne in Hl by (by apply Hold). destruct (rp_dom _ _ _ _ HR _ _ _ Hi' Hl) as (? & ? & ?).
        split; [done|]. split; [lia|]. rewrite Eh2, heap_ne by (apply not_eq_sym; by eapply Hlt). by apply Hi1.
    - intros r1 i1 r2 i2 l H1 H2 Hl1 Hl2. destruct (HinT r1 i1 H1) as [[-> ->]|H1'], (HinT r2 i2 H2) as [[-> ->]|H2'].
      + done.
      + rewrite Lset_ne in Hl2 by (by apply Hold). rewrite Lset_eq in Hl1. injection Hl1 as <-. by apply Hlt in Hl2.
      + rewrite Lset_ne in Hl1 by (by apply Hold). rewrite Lset_eq in Hl2. injection Hl2 as <-. by apply Hlt in Hl1.
      + rewrite Lset_ne in Hl1 by (by apply Hold). rewrite Lset_ne in Hl2 by (by apply Hold). by eapply (rp_inj _ _ _ _ HR).
    - intros r' y Hy. rewrite Eph. destruct (HinT _ _ Hy) as [[E Hym]|Hy'].
      + assert (r' = r) as -> by lia. rewrite Hym, (hp_root T') by done. rewrite Lset_eq, Lset_ne by lia.
        rewrite Eh2, nc_insert, decide_True by done. destruct (two_half y) as [Ey|Ey]; rewrite Hym in Ey; subst y.
        * rewrite (proj1 (odd_2 m)). cbn [niece i_l]. done.
        * rewrite (proj2 (odd_2 m)). cbn [niece i_r]. done.
      + rewrite !Lset_ne by (apply Hold; (by apply inT_kid) || (by apply HinThp)). rewrite Hnc by done. by apply (rp_kid _ _ _ _ HR).
    - intros i Hi. rewrite Eph. destruct (HinT _ _ Hi) as [[? _]|Hi']; [done|].
      rewrite !Lset_ne by lia. rewrite Hnc by done. by apply (rp_leaf _ _ _ _ HR).
    - intros i Hi. rewrite Eph. destruct (HinT _ _ Hi) as [[? _]|Hi']; [done|].
      rewrite !Lset_ne by lia. rewrite Hnc by done. by apply (rp_leaf' _ _ _ _ HR).
    - rewrite Ep1. cbn [p_next]. pose proof (rp_next _ _ _ _ HR). lia. }
  assert (Hv2 : forall l, hv h2 l = if decide (l = x) then ph else hv (p_heap p) l).
  { intros l. rewrite Eh2, hv_insert. cbn [i_hash]. by rewrite Hv1. }
  assert (Hg1 : agree p1 T' (Lset L (S r) m x) g).
  { intros r' i l Hi Hl. rewrite Ep1. cbn [p_heap]. rewrite Hv2. destruct (HinT r' i Hi) as [[-> ->]|Hi'].
    - rewrite Lset_eq in Hl. injection Hl as <-. by rewrite decide_True.
    - rewrite Lset_ne in Hl by (by apply Hold). rewrite decide_False by (by eapply Hlt). by apply Hg. }
  destruct (rep_get p1 T' _ M HR1 r (2 * m) a) as [na Ena].
  { apply inT_kid. rewrite (proj1 (half_2 m)). by apply inT_root. }
  { rewrite Lset_ne by lia. done. }
  destruct (rep_get p1 T' _ M HR1 r (2 * m + 1) b) as [nb Enb].
  { apply inT_kid. rewrite (proj2 (half_2 m)). by apply inT_root. }
  { rewrite Lset_ne by lia. done. }
  assert (Eph : p_heap p1 = h2) by (by rewrite Ep1). rewrite Eph in Ena, Enb. cbn [p_heap].
  rewrite (deref_ok _ _ _ Ena), (deref_ok _ _ _ Enb). cbn [bind].
  assert (Htight : forall L', (forall r' y l, L' r' y = Some l -> Lset L (S r) m x r' y = Some l) ->
    (tight T L M -> forall y, y / 2 = m -> is_Some (L' r y) -> exists i, M i = true /\ i / 2 ^ N.of_nat (S r) = m) -> tight T L M -> tight T' L' M).
  { intros L' Hsub Hy Ht r' y HyT Hl. destruct (HinT _ _ HyT) as [[Hr Hym]|Hin'].
    - assert (r' = r) as -> by lia. rewrite Hym. by apply (Hy Ht y).
    - destruct Hl as [l Hl]. apply Hsub in Hl. rewrite Lset_ne in Hl by (apply Hold; by apply inT_kid). by apply (Ht r' y). }
  destruct (negb (is_rem (i_l (a, na).2)) && negb (is_rem (i_l (b, nb).2))) eqn:Eprune.
  - destruct (prune_ok p1 T' (Lset L (S r) m x) M r m x HR1) as (h3 & Eh3 & HR3 & Hv3).
    { by apply inT_root. }
    { rewrite hp_root by done. by rewrite Lset_eq. }
    rewrite Eph in Eh3, Hv3. rewrite Eh3. cbn [bind]. eexists (p_set_heap p1 h3), _, rs, x. split; [by rewrite Ep1|].
    split; [by rewrite Ep1|]. split; [by rewrite Ep1|]. split; [by rewrite Ep1|]. cbn [p_heap p_set_heap].
    split; [rewrite Hv3, Hv2, decide_True by done; done|]. split; [done|].
    split; [intros r' i l Hi Hl%Lpr_sub; cbn [p_heap p_set_heap]; rewrite Hv3, <- Eph; by apply Hg1|].
    split; [|intros i l Hl%Lpr_sub; by rewrite Lset_ne in Hl by lia].
    apply Htight; [intros r' y l; apply Lpr_sub|]. intros Ht y Hy Hl. rewrite Lpr_at in Hl by done. destruct (kept (Lset L (S r) m x) M r y) eqn:Ek; [|by destruct Hl].
    destruct r as [|r0]; cbn [kept] in Ek.
    { exists (sib y). split; [done|]. change (2 ^ N.of_nat 1) with 2. by rewrite sib_half. }
    assert (Hs : inT T (S r0) (sib y)).
    { assert (Hsy : sib y / 2 = m) by (by rewrite sib_half). destruct (two_half (sib y)) as [->| ->]; by rewrite Hsy. }
    rewrite !Lset_ne in Ek by lia.
    assert (Hex : exists z, z / 2 = sib y /\ is_Some (L r0 z)).
    { destruct (half_2 (sib y)) as [E1 E2]. destruct (L r0 (2 * sib y)) eqn:El1; [exists (2 * sib y); by rewrite El1|].
      destruct (L r0 (2 * sib y + 1)) eqn:El2; [exists (2 * sib y + 1); by rewrite El2|done]. }
    destruct Hex as (z & Hz & Hlz). destruct (Ht r0 z) as (i & Hi & Ei); [by rewrite Hz|done|]. exists i. split; [done|].
    rewrite div_pow_half, Ei, Hz. by rewrite sib_half.
  - cbn [bind]. exists p1, (Lset L (S r) m x), rs, x. split; [by rewrite Ep1|].
    split; [by rewrite Ep1|]. split; [by rewrite Ep1|]. split; [by rewrite Ep1|]. rewrite Eph.
    split; [rewrite Hv2, decide_True by done; done|]. split; [done|]. split; [done|].
    split; [|intros i l Hl; by rewrite Lset_ne in Hl by lia].
    apply Htight; [done|]. intros Ht y Hy Hl. apply andb_false_iff in Eprune.
    assert (Hone : forall y' l' nd', y' / 2 = m -> L r y' = Some l' -> h2 !! l' = Some nd' -> is_rem (i_l nd') = true -> exists i, M i = true /\ i / 2 ^ N.of_nat (S r) = m).
    { clear y Hy Hl Eprune. intros y l nd Hy Hl Hnd Hrem.
      assert (Hsy : sib y / 2 = m) by (by rewrite sib_half).
      assert (Ehp : hp T' r (sib y) = y). { rewrite hp_kid; [by rewrite sib_sib|done|rewrite Hsy; by apply inT_root]. }
      assert (Hnc' : nc (p_heap p1) (Lset L (S r) m x r y) false = i_l nd) by (rewrite Lset_ne by lia; rewrite Hl, Eph; exact (nc_some _ _ _ false Hnd)).
      assert (Hs : inT T' r (sib y)) by (apply inT_kid; rewrite Hsy; by apply inT_root).
      destruct r as [|r0].
      - exists (sib y). change (2 ^ N.of_nat 1) with 2. split; [|done]. pose proof (rp_leaf _ _ _ _ HR1 _ Hs) as Hm. rewrite Ehp, Hnc' in Hm.
        rewrite Hm in Hrem. by destruct (M (sib y)).
      - exfalso. destruct (half_2 (sib y)) as [E1 _]. destruct (odd_2 (sib y)) as [E3 _]. pose proof (rp_kid _ _ _ _ HR1 r0 (2 * sib y)) as H1. rewrite E1, E3, Ehp, Hnc' in H1.
        specialize (H1 Hs). rewrite H1 in Hrem. destruct (Lset L (S (S r0)) m x r0 (2 * sib y)) as [l0|] eqn:El0; [|done].
        destruct (rp_dom _ _ _ _ HR1 r0 (2 * sib y) l0) as (Hne & _); [apply inT_kid; by rewrite E1|done|]. cbn in Hrem. apply N.eqb_eq in Hrem. done. }
    destruct Eprune as [Hx%negb_false_iff|Hx%negb_false_iff]; cbn [snd] in Hx.
    + by apply (Hone (2 * m) a na); [apply half_2|..].
    + by apply (Hone (2 * m + 1) b nb); [apply half_2|..].
Qed.

(** ** The trees after adding a leaf *)
Lemma trees_add n t q : n + 1 = q * 2 ^ t -> N.testbit n t = false ->
  trees (n + 1) = (root_at n <$> rr t (N.to_nat (NumRows (n + 1))) n) ++ [(t, n / 2 ^ t)].
Proof.
  intros Hq Hb. destruct (carry N.add _ _ _ Hq Hb) as (s & Es & Hd & Hx). unfold trees. remember (N.to_nat (NumRows (n + 1))) as K eqn:EK.
  rewrite <- (rr_0 K (n + 1)), (rr_low t q K (n + 1) Hq), (rr_S t K (n + 1)), (rr_S t K n), Hb. rewrite app_nil_r.
  assert (HtK : t <= N.of_nat K).
  { pose proof (ones_node n (n + 1) t q Hq ltac:(lia)) as Ht%node_row. lia. }
  assert (Hbt : N.testbit (n + 1) t = true).
  { rewrite testbit_mod, Hq, N.div_mul by (pose proof (pow_pos t); lia). subst q. clear. dlia. }
  rewrite Hbt. destruct (N.leb_spec t (N.of_nat K)); [|lia]. cbn [andb].
  assert (Hext : rr (t + 1) K (n + 1) = rr (t + 1) K n).
  { apply rr_ext. intros x Hx'. by rewrite !testbit_mod, Hx by lia. }
  rewrite Hext, !fmap_app. f_equal.
  - apply list_fmap_ext. intros k x Hk%elem_of_list_lookup_2. unfold root_at.
    unfold rr in Hk. apply elem_of_list_filter in Hk as [Hle _]. by rewrite Hx by lia.
  - cbn [fmap list_fmap]. unfold root_at. do 2 f_equal. rewrite div_pow_S, Hq, N.div_mul by (pose proof (pow_pos t); lia).
    subst q. rewrite Hd. clear. dlia.
Qed.

(** ** The loop over the carries *)
Section Add.
Context (H : hash -> hash -> hash).
Lemma P_add_merge_ok ls h K n fuel : size ls = n -> n < 2 ^ 62 -> NumRows (n + 1) <= N.of_nat K ->
  forall r q p L M x rs, (N.of_nat fuel + r = 65) -> n + 1 = q * 2 ^ r -> p_n p = n ->
  rep p ((root_at n <$> rr r K n) ++ [(r, n / 2 ^ r)]) L M ->
  agree p ((root_at n <$> rr r K n) ++ [(r, n / 2 ^ r)]) L (nh H (leaf_at (ls ++ [h]))) ->
  p_roots p = rs ++ [PRoot (Some x) (npos n r) vflag0] -> hv (p_heap p) x = nh H (leaf_at (ls ++ [h])) (N.to_nat r) (n / 2 ^ r) ->
  exists p' t q' L' , P_add_merge H fuel p n r (last_index (size (rr r K n))) (hv (p_heap p) x) (npos n r) = Ok p' /\
    n + 1 = q' * 2 ^ t /\ N.testbit n t = false /\ p_n p' = n /\ p_posmap p' = p_posmap p /\
    rep p' ((root_at n <$> rr t K n) ++ [(t, n / 2 ^ t)]) L' M /\
    agree p' ((root_at n <$> rr t K n) ++ [(t, n / 2 ^ t)]) L' (nh H (leaf_at (ls ++ [h]))) /\
    (tight ((root_at n <$> rr r K n) ++ [(r, n / 2 ^ r)]) L M -> tight ((root_at n <$> rr t K n) ++ [(t, n / 2 ^ t)]) L' M) /\
    (forall i l, L' 0%nat i = Some l -> L 0%nat i = Some l).
Proof.
  intros Hls Hn62 HK. induction fuel as [|fuel IH]; intros r q p L M x rs Hfuel Hq Hpn HR Hg Hrs Hx.
  { exfalso. assert (r = 65) as -> by lia. change (2 ^ 65) with (8 * 2 ^ 62) in Hq. remember (2 ^ 62) as P.
    destruct (N.eq_dec q 0) as [->|]; [lia|]. assert (1 * (8 * P) <= q * (8 * P)) by (apply N.mul_le_mono_r; lia). lia. }
  assert (Hr62 : r <= 62).
  { apply N.nlt_ge. intros Hr. assert (2 ^ 63 <= 2 ^ r) by (apply N.pow_le_mono_r; lia). change (2 ^ 63) with (2 * 2 ^ 62) in *.
    remember (2 ^ 62) as P. remember (2 ^ r) as Q. destruct (N.eq_dec q 0) as [->|]; [lia|].
    assert (1 * Q <= q * Q) by (apply N.mul_le_mono_r; lia). lia. }
  cbn [P_add_merge]. rewrite HasRoot_ok by lia. cbn [bind]. destruct (ones_step n r q Hq) as (Hdiv & Ht & Hf).
  destruct (N.testbit n r) eqn:Eb.
  - destruct (Ht eq_refl) as [q' Eq]. assert (Hq' : n + 1 = q' * 2 ^ (r + 1)) by (rewrite pow_S; lia).
    assert (HrK : r <= N.of_nat K).
    { pose proof (ones_node n (n + 1) r q Hq ltac:(lia)) as Hx'%node_row. lia. }
    assert (Erows : rr r K n = rr (r + 1) K n ++ [r]).
    { rewrite rr_S, Eb. destruct (N.leb_spec r (N.of_nat K)); [done|lia]. }
    assert (Esz : size (rr r K n) = size (rr (r + 1) K n) + 1) by (rewrite Erows; unfold size; rewrite app_length; cbn [length]; lia).
    assert (Eidx : last_index (size (rr r K n)) = Some (size (rr (r + 1) K n))).
    { rewrite Esz. unfold last_index. destruct (N.eqb_spec (size (rr (r + 1) K n) + 1) 0); [lia|]. f_equal. lia. }
    rewrite Eidx.
    remember (root_at n <$> rr (r + 1) K n) as T0 eqn:ET0. remember (n / 2 ^ (r + 1)) as m eqn:Em.
    assert (Hdm : n / 2 ^ r = 2 * m + 1).
    { destruct (ones_step n (r + 1) q' Hq') as [Hd' _]. rewrite Em, Hd', Hdiv. assert (q' <> 0) by (intros ->; lia). lia. }
    assert (ET : (root_at n <$> rr r K n) ++ [(r, n / 2 ^ r)] = T0 ++ [(N.of_nat (N.to_nat r), 2 * m); (N.of_nat (N.to_nat r), 2 * m + 1)]).
    { rewrite Erows, fmap_app, <- ET0, <- app_assoc, N2Nat.id, <- Hdm. unfold root_at at 1. cbn [fmap list_fmap app]. by rewrite <- Em. }
    rewrite ET in HR, Hg. rewrite ET.
    assert (Hab : above (N.to_nat r) T0).
    { intros t Ht'. rewrite ET0 in Ht'. apply elem_of_list_fmap in Ht' as (y & -> & Hy). unfold rr in Hy. apply elem_of_list_filter in Hy as [Hy _].
      unfold root_at. cbn [fst]. lia. }
    (* the left root *)
    assert (Hla : (N.of_nat (N.to_nat r), 2 * m) ∈ T0 ++ [(N.of_nat (N.to_nat r), 2 * m); (N.of_nat (N.to_nat r), 2 * m + 1)])
      by (apply elem_of_app; right; left).
    destruct (rp_root _ _ _ _ HR _ _ Hla) as [a Ea].
    assert (Hget : exists rnd, vec_get (p_roots p) (size (rr (r + 1) K n)) = Ok rnd /\ pr_node rnd = Some a).
    { pose proof (rp_roots _ _ _ _ HR) as Hr0. apply (f_equal (fun l => l !! length T0)) in Hr0. rewrite !list_lookup_fmap in Hr0.
      rewrite lookup_app_r, Nat.sub_diag in Hr0 by lia. cbn [lookup list_lookup fmap option_fmap option_map fst snd] in Hr0.
      rewrite Nat2N.id, Ea in Hr0. destruct (p_roots p !! length T0) as [rnd|] eqn:El; [|done]. cbn in Hr0. apply (inj Some) in Hr0.
      exists rnd. split; [|done]. unfold vec_get, size. rewrite Nat2N.id. rewrite ET0, fmap_length in El. by rewrite El. }
    destruct Hget as (rnd & Hget & Hnode). rewrite Hget. cbn [bind]. rewrite Hnode.
    destruct (rep_get p _ L M HR _ _ _ (inT_root _ _ _ Hla) Ea) as [na Ena].
    unfold P_GetHash at 1. rewrite (deref_ok _ _ _ Ena). cbn [bind snd].
    pose proof (Hg _ _ _ (inT_root _ _ _ Hla) Ea) as Hga. unfold hv in Hga. rewrite Ena in Hga.
    destruct (npos_ok n r q' ltac:(lia) Hq') as (Hpar & _). rewrite Hpar. cbn [bind].
    destruct (MergeRoot_ok p T0 L M (nh H (leaf_at (ls ++ [h]))) (N.to_nat r) m (npos n (r + 1)) (H (i_hash na) (hv (p_heap p) x)) HR Hg Hab)
      as (p1 & L1 & rs1 & x1 & E1 & Hpn1 & Hpm1 & Hrs1 & Hx1 & HR1 & Hg1 & Ht1 & Hsb1).
    { cbn [nh]. rewrite Hga, Hx, Hdm. done. }
    rewrite E1. cbn [bind]. rewrite Hrs1, vec_back_snoc. cbn [bind pr_node pr_pos].
    replace (N.of_nat (S (N.to_nat r))) with (r + 1) in HR1, Hg1, Ht1 by lia. rewrite Em, ET0 in HR1, Hg1, Ht1.
    destruct (rp_root _ _ _ _ HR1 (N.to_nat (r + 1)) (n / 2 ^ (r + 1))) as [y Ey].
    { rewrite N2Nat.id. apply elem_of_app. right. left. }
    assert (Hxy : y = x1).
    { pose proof (rp_roots _ _ _ _ HR1) as Hr0. rewrite Hrs1, !fmap_app in Hr0. cbn [fmap list_fmap fst snd pr_node] in Hr0.
      apply app_inj_tail in Hr0 as [_ Hr0]. congruence. }
    subst y.
    destruct (rep_get p1 _ L1 M HR1 (N.to_nat (r + 1)) (n / 2 ^ (r + 1)) x1) as [nx Enx]; [|done|].
    { apply inT_root. rewrite N2Nat.id. apply elem_of_app. right. left. }
    unfold P_GetHash at 1. rewrite (deref_ok _ _ _ Enx). cbn [bind snd].
    assert (Ehv : i_hash nx = hv (p_heap p1) x1) by (unfold hv; by rewrite Enx). rewrite Ehv.
    destruct (IH (r + 1) q' p1 L1 M x1 rs1 ltac:(lia) Hq' ltac:(congruence) HR1 Hg1 Hrs1) as (p' & t & qt & L' & E & Hqt & Hbt & Hpn' & Hpm' & HR' & Hg' & Ht' & Hsb').
    { rewrite Hx1, Hga, Hx, Hdm. replace (N.to_nat (r + 1)) with (S (N.to_nat r)) by lia. cbn [nh]. by rewrite <- Em. }
    fold (last_index (size (rr (r + 1) K n))). rewrite E. exists p', t, qt, L'. split_and!; [done..|congruence|done|done| |intros i l Hl; by apply Hsb1, Hsb']. intros Ht0. apply Ht', Ht1. rewrite Em, ET0 in Ht0. exact Ht0.
  - exists p, r, q, L. split_and!; done.
Qed.

(** ** One leaf *)
Definition PInv (p : pollard) (ls : list hash) : Prop :=
  p_n p = size ls /\ exists L M, rep p (trees (size ls)) L M /\ agree p (trees (size ls)) L (nh H (leaf_at ls)).
(** The same, naming which leaves are remembered. *)
Definition PMark (p : pollard) (ls : list hash) (M : N -> bool) : Prop :=
  p_n p = size ls /\ exists L, rep p (trees (size ls)) L M /\ agree p (trees (size ls)) L (nh H (leaf_at ls)).
Lemma PInv_mark p ls : PInv p ls <-> exists M, PMark p ls M.
Proof. split; [intros (E & L & M & ?); exists M; split; [done|]; by exists L|]. intros (M & E & L & ?). split; [done|]. by exists L, M. Qed.

(** The same, in terms of the nodes that can be read. *)
Definition PTight (p : pollard) (n : N) (M : N -> bool) : Prop :=
  forall r x h, node n (N.of_nat (S r)) (x / 2) -> P_Read p (enc (NumRows n) (N.of_nat r) x) = Ok (Some h) -> exists i, M i = true /\ i / 2 ^ N.of_nat (S r) = x / 2.
Lemma PTight_iff p n L M M' : n <= 2 ^ 62 -> p_n p = n -> rep p (trees n) L M -> PTight p n M' <-> tight (trees n) L M'.
Proof.
  intros Hn Hpn HR. assert (Hrd : forall r x, node n (N.of_nat (S r)) (x / 2) -> P_Read p (enc (NumRows n) (N.of_nat r) x) = Ok (hv (p_heap p) <$> L r x)).
  { intros r x Hx. apply (P_Read_ok n Hn p L M r x Hpn HR). apply trees_under, inT_kid. by apply trees_under. }
  split.
  - intros Ht r x Hx%trees_under [l Hl]. apply (Ht r x (hv (p_heap p) l) Hx). rewrite Hrd by done. by rewrite Hl.
  - intros Ht r x h Hx E. rewrite Hrd in E by done. apply (Ht r x); [by apply trees_under|]. destruct (L r x); [done|discriminate E].
Qed.

Lemma rep_roots p T L M rs : rep p T L M -> pr_node <$> rs = pr_node <$> p_roots p -> rep (p_set_roots p rs) T L M.
Proof. intros [] E. split; try done. cbn [p_set_roots p_roots]. by rewrite E. Qed.
Lemma p_fix_positions rs p0 p1 : 2 <= size rs ->
  exists rs', (let* r1 := vec_get rs 1 in
    let* rs1 := vec_set rs 1 (set_pr_pos r1 p1) in
    let* r0 := vec_get rs1 0 in
    let* rs2 := vec_set rs1 0 (set_pr_pos r0 p0) in Ok rs2) = Ok rs' /\ pr_node <$> rs' = pr_node <$> rs.
Proof.
  intros Hs. destruct rs as [|a [|b rs]]; [cbn in Hs; lia|cbn in Hs; lia|]. 
  unfold vec_get, vec_set. change (N.to_nat 1) with 1%nat. change (N.to_nat 0) with 0%nat. cbn [lookup list_lookup bind].
  destruct (N.ltb_spec 1 (size (a :: b :: rs))); [|lia]. cbn [bind insert list_insert lookup list_lookup].
  destruct (N.ltb_spec 0 (size (a :: set_pr_pos b p1 :: rs))); [|unfold size in *; cbn [length] in *; lia].
  cbn [bind]. eexists. split; [done|]. done.
Qed.
Lemma bind_assoc {A B C} (m : res A) (f : A -> res B) (k : B -> res C) : bind (bind m f) k = bind m (fun x => bind (f x) k).
Proof. by destruct m. Qed.

Lemma two_trees n : NumRows n <> 0 -> n = 2 ^ NumRows n -> NumRows n < NumRows (n + 1) -> 2 <= size (trees (n + 1)).
Proof.
  intros Hc En2 Hgt. unfold size, trees. rewrite fmap_length.
  assert (H1 : NumRows n ∈ root_rows (N.to_nat (NumRows (n + 1))) (n + 1)).
  { apply root_rows_elem. split; [lia|]. rewrite testbit_mod. rewrite En2 at 1.
    rewrite N.add_comm. rewrite <- (N.mul_1_l (2 ^ NumRows n)) at 1. rewrite N.div_add by (pose proof (pow_pos (NumRows n)); lia).
    rewrite N.div_small; [done|]. replace (NumRows n) with (NumRows n - 1 + 1) by lia. rewrite pow_S. pose proof (pow_pos (NumRows n - 1)). lia. }
  assert (H2 : 0 ∈ root_rows (N.to_nat (NumRows (n + 1))) (n + 1)).
  { apply root_rows_elem. split; [lia|]. rewrite testbit_mod. change (2 ^ 0) with 1. rewrite N.div_1_r, En2.
    replace (NumRows n) with (NumRows n - 1 + 1) by lia. rewrite pow_S. generalize (2 ^ (NumRows n - 1)). clear. intros P. dlia. }
  destruct (root_rows _ (n + 1)) as [|x [|y l]]; [by apply elem_of_nil in H1| |cbn [length]; lia].
  apply elem_of_list_singleton in H1, H2. lia.
Qed.

Lemma P_add_leaf_mark p ls M h b : PMark p ls M -> size ls < 2 ^ 62 ->
  exists p', P_add_leaf H p (h, b) = Ok p' /\ PMark p' (ls ++ [h]) (λ i, if i =? size ls then b else M i) /\ p_posmap p' = (if b then <[h := size ls]> (p_posmap p) else p_posmap p) /\
    (PTight p (size ls) M -> PTight p' (size (ls ++ [h])) (λ i, if i =? size ls then b else M i)) /\
    (forall y, y < size ls -> P_Read p y = Ok None -> P_Read p' y = Ok None).
Proof.
  intros [Hpn (L & HR & Hg)] Hn62. remember (size ls) as n eqn:En.
  assert (Hsz : size (ls ++ [h]) = n + 1) by (rewrite En; unfold size; rewrite app_length; cbn [length]; lia).
  unfold P_add_leaf. rewrite Hpn.
  assert (Hfresh : ~ inT (trees n) 0 n).
  { rewrite trees_under. unfold node. change (2 ^ N.of_nat 0) with 1. lia. }
  assert (Hd : disj (trees n ++ [(0, n)])).
  { assert (Hx : forall t r' x, t ∈ trees n -> under t r' x -> under (0, n) r' x -> False).
    { intros t r' x Ht Hu [Hr Hn]. cbn [fst snd] in *. assert (r' = 0%nat) as -> by lia. change (2 ^ (0 - N.of_nat 0)) with 1 in Hn.
      rewrite N.div_1_r in Hn. subst x. apply Hfresh. by exists t. }
    intros t t' r' x [Ht|Ht%elem_of_list_singleton]%elem_of_app [Ht'|Ht'%elem_of_list_singleton]%elem_of_app Hu Hu'.
    - by apply (trees_disj n t t' r' x).
    - exfalso. subst t'. by eapply Hx.
    - exfalso. subst t. by eapply Hx.
    - congruence. }
  assert (Hg' : agree p (trees n) L (nh H (leaf_at (ls ++ [h])))).
  { intros r i l Hi Hl. rewrite (Hg r i l Hi Hl). symmetry. apply nh_app1. apply trees_under in Hi. by rewrite <- En. }
  destruct (NewLeaf_ok p (trees n) L M (nh H (leaf_at (ls ++ [h]))) h b n Hpn HR Hg' Hd Hfresh)
    as (p1 & x & E1 & Hpn1 & Hrs1 & Hpm1 & Hx1 & HR1 & Hg1 & Ht1).
  { cbn [nh]. replace n with (size ls + 0) by lia. by rewrite leaf_at_app2. }
  rewrite E1. cbn [bind fst]. remember (N.to_nat (NumRows (n + 1))) as K eqn:EK.
  assert (Hrr : rr 0 K n = root_rows (N.to_nat (NumRows n)) n).
  { rewrite rr_0. apply root_rows_trim. pose proof (NumRows_mono n (n + 1) ltac:(lia)). lia. }
  assert (Hsr : size (p_roots p) = size (rr 0 K n)).
  { unfold size. rewrite <- (fmap_length pr_node), (rp_roots _ _ _ _ HR), Hrr. unfold trees. by rewrite !fmap_length. }
  rewrite Hsr. fold (last_index (size (rr 0 K n))).
  assert (Enp : npos n 0 = n).
  { unfold npos. destruct (N.eqb_spec n 1) as [->|]; [done|]. change (2 ^ 0) with 1. rewrite N.div_1_r. apply enc_0. }
  assert (ET : trees n ++ [(0, n)] = (root_at n <$> rr 0 K n) ++ [(0, n / 2 ^ 0)]).
  { rewrite Hrr. change (2 ^ 0) with 1. by rewrite N.div_1_r. }
  rewrite ET in HR1, Hg1, Ht1. rewrite <- Enp in Hrs1 at 1.
  destruct (P_add_merge_ok ls h K n 65 ltac:(done) Hn62 ltac:(lia) 0 (n + 1) p1 _ _ x (p_roots p) ltac:(done) ltac:(by rewrite N.mul_1_r) Hpn1 HR1 Hg1 Hrs1)
    as (p2 & t & q & L2 & E2 & Hq & Hbt & Hpn2 & Hpm2 & HR2 & Hg2 & Ht2 & Hsb2).
  { rewrite Hx1. change (2 ^ 0) with 1. rewrite N.div_1_r. change (N.to_nat 0) with 0%nat. cbn [nh].
    replace n with (size ls + 0) by lia. by rewrite leaf_at_app2. }
  rewrite Hx1, Enp in E2. rewrite E2. cbn [bind]. rewrite Hpn2.
  assert (Hadd : add64 n 1 = n + 1) by (apply add64_small; assert (2 ^ 62 < two64) by done; lia). rewrite Hadd.
  rewrite EK, <- (trees_add n t q Hq Hbt) in HR2, Hg2, Ht2.
  remember (p_set_n p2 (n + 1)) as p3 eqn:Ep3.
  assert (Hpn3 : p_n p3 = n + 1) by (by rewrite Ep3). rewrite Hpn3.
  assert (HR3 : rep p3 (trees (n + 1)) L2 (fun i => if i =? n then b else M i)) by (rewrite Ep3; by apply rep_set_n).
  assert (Hg3 : agree p3 (trees (n + 1)) L2 (nh H (leaf_at (ls ++ [h])))) by (by rewrite Ep3).
  assert (Hpm3 : p_posmap p3 = (if b then <[h := n]> (p_posmap p) else p_posmap p)) by (rewrite Ep3; cbn [p_posmap p_set_n]; by rewrite Hpm2, Hpm1).
  assert (Ht3 : PTight p n M -> tight (trees (n + 1)) L2 (λ i, if i =? n then b else M i)).
  { intros Ht. apply Ht2. rewrite <- EK. apply Ht1. by apply (PTight_iff p n L M M ltac:(lia) Hpn HR). }
  assert (Hsb3 : forall q, p_n q = n + 1 -> rep q (trees (n + 1)) L2 (fun i => if i =? n then b else M i) -> forall y, y < n -> P_Read p y = Ok None -> P_Read q y = Ok None).
  { intros q3 Hq3 HRq y Hy E.
    pose proof (P_Read_ok n ltac:(lia) p L M 0 y Hpn HR ltac:(unfold node; change (2 ^ N.of_nat 0) with 1; lia)) as Ey. change (N.of_nat 0) with 0 in Ey.
    rewrite enc_0, E in Ey. apply Ok_inv in Ey.
    pose proof (P_Read_ok (n + 1) ltac:(lia) q3 L2 _ 0 y Hq3 HRq ltac:(unfold node; change (2 ^ N.of_nat 0) with 1; lia)) as Eq. change (N.of_nat 0) with 0 in Eq.
    rewrite enc_0 in Eq. rewrite Eq. f_equal. destruct (L2 0%nat y) as [l|] eqn:El; [|done]. apply Hsb2 in El. rewrite Lset_ne in El by lia. by rewrite El in Ey. }
  clear Ep3 Hpn2 HR2 Hg2 E2 Hpm2.
  destruct ((NumRows n =? 0) || (NumRows n =? NumRows (n + 1))) eqn:Ec.
  { exists p3. split; [done|]. split; [split; [by rewrite Hsz|]; rewrite Hsz; eauto|]. split; [done|]. split; [|by apply Hsb3].
    intros Ht. rewrite Hsz. apply (PTight_iff p3 (n + 1) L2 _ _ ltac:(lia) Hpn3 HR3). by apply Ht3. }
  apply orb_false_iff in Ec as [Ec1%N.eqb_neq Ec2%N.eqb_neq].
  pose proof (NumRows_mono n (n + 1) ltac:(lia)) as Hmono. pose proof (NumRows_bound n) as Hb.
  assert (Hgt : NumRows n < NumRows (n + 1)) by lia. assert (Hgt' := Hgt). apply NumRows_gt in Hgt'. assert (En2 : n = 2 ^ NumRows n) by lia.
  assert (Htwo : 2 <= size (p_roots p3)).
  { unfold size. rewrite <- (fmap_length pr_node), (rp_roots _ _ _ _ HR3), fmap_length. by apply two_trees. }
  unfold assert_. destruct (N.leb_spec 2 (size (p_roots p3))); [|lia]. cbn [bind].
  assert (Hn1 : n + 1 <= 2 ^ 62) by lia.
  rewrite (RootPosition_ok (n + 1) Hn1 0) by lia. cbn [bind].
  rewrite (RootPosition_ok (n + 1) Hn1 (NumRows (n + 1) - 1)) by lia. cbn [bind].
  destruct (p_fix_positions (p_roots p3) (enc (NumRows (n + 1)) (NumRows (n + 1) - 1) (2 * ((n + 1) / 2 ^ (NumRows (n + 1) - 1 + 1))))
    (enc (NumRows (n + 1)) 0 (2 * ((n + 1) / 2 ^ (0 + 1)))) Htwo) as (rs' & E & Hh).
  exists (p_set_roots p3 rs'). split; [|split; [|split; [done|split; [|apply Hsb3; [done|by apply rep_roots]]]]].
  - destruct (vec_get (p_roots p3) 1); cbn [bind] in E |- *; try done.
    destruct (vec_set (p_roots p3) 1 _); cbn [bind] in E |- *; try done.
    destruct (vec_get _ 0); cbn [bind] in E |- *; try done.
    destruct (vec_set _ 0 _); cbn [bind] in E |- *; try done. congruence.
  - split; [by rewrite Hsz|]. rewrite Hsz. eexists. split; [by apply rep_roots|done].
  - intros Ht. rewrite Hsz. apply (PTight_iff (p_set_roots p3 rs') (n + 1) L2 _ _ ltac:(lia) Hpn3 (rep_roots _ _ _ _ _ HR3 Hh)). by apply Ht3.
Qed.
Lemma P_add_leaf_ok p ls h b : PInv p ls -> size ls < 2 ^ 62 ->
  exists p', P_add_leaf H p (h, b) = Ok p' /\ PInv p' (ls ++ [h]) /\ p_posmap p' = (if b then <[h := size ls]> (p_posmap p) else p_posmap p).
Proof.
  intros [M HM]%PInv_mark Hn. destruct (P_add_leaf_mark p ls M h b HM Hn) as (p' & E & HM' & Epm & _). exists p'. split; [done|]. split; [|done]. apply PInv_mark. by eexists.
Qed.

(** ** Several leaves *)
Lemma P_Add_mark (adds : list leaf) : forall p ls M, PMark p ls M -> size ls + size adds <= 2 ^ 62 ->
  exists p' M', P_Add H p adds = Ok p' /\ PMark p' (ls ++ adds.*1) M' /\ (forall i, i < size ls -> M' i = M i) /\
    (forall k h b, adds !! k = Some (h, b) -> M' (size ls + N.of_nat k) = b) /\
    (PTight p (size ls) M -> PTight p' (size (ls ++ adds.*1)) M') /\
    (forall y, y < size ls -> P_Read p y = Ok None -> P_Read p' y = Ok None).
Proof.
  induction adds as [|[h b] adds IH]; intros p ls M Hp Hn.
  - exists p, M. split; [done|]. rewrite app_nil_r. done.
  - unfold leaf in *. assert (Hs : size ((h, b) :: adds) = size adds + 1) by (unfold size; cbn [length]; lia).
    destruct (P_add_leaf_mark p ls M h b Hp ltac:(lia)) as (p1 & E1 & Hp1 & _ & Ht1 & Hs1).
    assert (Hsz : size (ls ++ [h]) = size ls + 1) by (unfold size; rewrite app_length; cbn [length]; lia).
    destruct (IH p1 (ls ++ [h]) _ Hp1 ltac:(lia)) as (p' & M' & E & Hp' & HM1 & HM2 & Ht' & Hs').
    exists p', M'. split; [unfold P_Add; cbn [foldM]; rewrite E1; cbn [bind]; exact E|]. rewrite <- app_assoc in Hp', Ht'. split; [exact Hp'|]. rewrite Hsz in HM1, HM2, Hs'. split; [|split; [|split]].
    + intros i Hi. rewrite HM1 by lia. by rewrite (proj2 (N.eqb_neq i (size ls))) by lia.
    + intros [|k] h' b'; cbn [lookup list_lookup].
      * intros [= <- <-]. rewrite HM1 by lia. by rewrite (proj2 (N.eqb_eq _ _)) by lia.
      * intros Hk. rewrite <- (HM2 k h' b' Hk). f_equal. lia.
    + intros Ht. by apply Ht', Ht1.
    + intros y Hy Ey. apply Hs'; [lia|]. by apply Hs1.
Qed.
Lemma P_Add_ok (adds : list leaf) p ls : PInv p ls -> size ls + size adds <= 2 ^ 62 ->
  exists p', P_Add H p adds = Ok p' /\ PInv p' (ls ++ adds.*1).
Proof.
  intros [M HM]%PInv_mark Hn. destruct (P_Add_mark adds p ls M HM Hn) as (p' & M' & E & HM' & _). exists p'. split; [done|]. apply PInv_mark. by exists M'.
Qed.
End Add.
