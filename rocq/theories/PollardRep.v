(** * PollardRep: the shape of a pollard (proofs) *)
From stdpp Require Import sorting.
From Verif Require Import Base StateModel ForestModel PollardModel PosSpec PosFacts PathFacts MerkleSpec ForestFacts RowFacts
  TransformFacts RemoveFacts ForestInv.
From Coq Require Import ZifyBool ZifyNat ZifyN.
Ltac Zify.zify_post_hook ::= idtac.
Ltac dlia := zify; Z.div_mod_to_equations; lia.

(** ** Coordinates relative to a set of trees *)
Definition under (t : N * N) (r : nat) (i : N) : Prop := N.of_nat r <= t.1 /\ i / 2 ^ (t.1 - N.of_nat r) = t.2.
Definition inT (T : list (N * N)) (r : nat) (i : N) : Prop := exists t, t ∈ T /\ under t r i.
Definition disj (T : list (N * N)) : Prop :=
  forall t t' r i, t ∈ T -> t' ∈ T -> under t r i -> under t' r i -> t = t'.
(** The index of the node that holds the nieces of node [(r, i)]'s children. *)
Definition hp (T : list (N * N)) (r : nat) (i : N) : N := if decide ((N.of_nat r, i) ∈ T) then i else sib i.

Lemma under_root r i : under (N.of_nat r, i) r i.
Proof. split; cbn [fst snd]; [lia|]. rewrite N.sub_diag. apply N.div_1_r. Qed.
Lemma under_up t r x : N.of_nat r < t.1 -> under t r x <-> under t (S r) (x / 2).
Proof.
  intros Hr. unfold under. replace (t.1 - N.of_nat r) with (t.1 - N.of_nat (S r) + 1) by lia. rewrite pow_S.
  rewrite N.div_div by (pose proof (pow_pos (t.1 - N.of_nat (S r))); lia). split; intros [? ?]; split; (done || lia).
Qed.
Lemma under_kid t r x : under t (S r) (x / 2) -> under t r x.
Proof. intros Hu. apply (proj2 (under_up t r x ltac:(destruct Hu; lia))). done. Qed.
Lemma inT_kid T r x : inT T (S r) (x / 2) -> inT T r x.
Proof. intros (t & Ht & Hu). exists t. split; [done|]. by apply under_kid. Qed.
Lemma inT_root T r i : (N.of_nat r, i) ∈ T -> inT T r i.
Proof. intros Ht. eexists. split; [done|]. apply under_root. Qed.
Lemma inT_cases T r x : inT T r x -> (N.of_nat r, x) ∈ T \/ inT T (S r) (x / 2).
Proof.
  intros (t & Ht & Hu). destruct (decide (N.of_nat r = t.1)) as [E|E].
  - left. destruct Hu as [_ Hu]. rewrite E, N.sub_diag in Hu. change (2 ^ 0) with 1 in Hu. rewrite N.div_1_r in Hu.
    destruct t as [a b]. cbn [fst snd] in *. rewrite E. rewrite Hu. exact Ht.
  - right. exists t. split; [done|]. apply (proj1 (under_up t r x ltac:(destruct Hu; lia))). done.
Qed.
Lemma kid_not_root T r x : disj T -> inT T (S r) (x / 2) -> (N.of_nat r, x) ∉ T.
Proof.
  intros Hd (t & Ht & Hu) Hr. pose proof (Hd t _ r x Ht Hr (under_kid _ _ _ Hu) (under_root r x)) as ->. destruct Hu as [Hu _].
  cbn [fst] in Hu. lia.
Qed.
Lemma hp_root T r i : (N.of_nat r, i) ∈ T -> hp T r i = i.
Proof. intros Hr. unfold hp. by rewrite decide_True. Qed.
Lemma hp_kid T r x : disj T -> inT T (S r) (x / 2) -> hp T r x = sib x.
Proof. intros Hd Hx. unfold hp. rewrite decide_False; [done|]. by apply kid_not_root. Qed.
Lemma inT_sib T r x : inT T (S r) (x / 2) -> inT T r (sib x).
Proof. intros Hx. apply inT_kid. by rewrite sib_half. Qed.
Lemma inT_hp T r x : disj T -> inT T r x -> inT T r (hp T r x).
Proof.
  intros Hd Hx. destruct (inT_cases _ _ _ Hx) as [Hr|Hk]; [by rewrite hp_root|]. rewrite hp_kid by done. by apply inT_sib.
Qed.
Lemma hp_hp T r x : disj T -> inT T r x -> hp T r (hp T r x) = x.
Proof.
  intros Hd Hx. destruct (inT_cases _ _ _ Hx) as [Hr|Hk]; [by rewrite !hp_root; rewrite ?hp_root|].
  rewrite (hp_kid T r x) by done. rewrite hp_kid; [apply sib_sib|done|by rewrite sib_half].
Qed.
Lemma hp_inj T r x y : disj T -> inT T r x -> inT T r y -> hp T r x = hp T r y -> x = y.
Proof. intros Hd Hx Hy E. rewrite <- (hp_hp T r x), E by done. by apply hp_hp. Qed.
Lemma hp_half T r x : hp T r x / 2 = x / 2.
Proof. unfold hp. destruct (decide _); [done|]. apply sib_half. Qed.

Lemma odd_mod x : N.odd x = (x mod 2 =? 1).
Proof. rewrite <- N.negb_even, even_mod. destruct (N.eqb_spec (x mod 2) 0), (N.eqb_spec (x mod 2) 1); try done; dlia. Qed.
Lemma odd_sib x : N.odd (sib x) = negb (N.odd x).
Proof.
  rewrite !odd_mod. unfold sib. rewrite even_mod.
  destruct (N.eqb_spec (x mod 2) 0), (N.eqb_spec (x mod 2) 1); try done; cbn [negb]; dlia.
Qed.
Lemma half_2 i : 2 * i / 2 = i /\ (2 * i + 1) / 2 = i.
Proof. split; dlia. Qed.
Lemma odd_2 i : N.odd (2 * i) = false /\ N.odd (2 * i + 1) = true.
Proof. rewrite !odd_mod. split; dlia. Qed.
Lemma sib_2 i : sib (2 * i) = 2 * i + 1 /\ sib (2 * i + 1) = 2 * i.
Proof. unfold sib. rewrite !even_mod. destruct (N.eqb_spec ((2 * i) mod 2) 0), (N.eqb_spec ((2 * i + 1) mod 2) 0); dlia. Qed.
Lemma two_half x : x = 2 * (x / 2) \/ x = 2 * (x / 2) + 1.
Proof. dlia. Qed.

Lemma trees_elem n r i : (r, i) ∈ trees n <-> is_root n r i.
Proof.
  rewrite is_root_iff. unfold trees, root_at. rewrite elem_of_list_fmap. split.
  - intros (x & [= -> ->] & [_ Hx]%root_rows_elem). done.
  - intros [Hb ->]. exists r. split; [done|]. apply root_rows_elem. split; [|done]. rewrite N2Nat.id. by apply testbit_le_rows.
Qed.
Lemma trees_under n r i : inT (trees n) r i <-> node n (N.of_nat r) i.
Proof.
  split.
  - intros ([tr k] & Ht & [Hr Hi]). cbn [fst snd] in *. apply trees_elem in Ht as [Hn _]. unfold node in *.
    pose proof (pow_pos (tr - N.of_nat r)) as Hp. pose proof (N.mul_succ_div_gt i (2 ^ (tr - N.of_nat r)) ltac:(lia)) as Hx. rewrite Hi in Hx.
    replace tr with (tr - N.of_nat r + N.of_nat r) in Hn by lia. rewrite N.pow_add_r in Hn.
    pose proof (pow_pos (N.of_nat r)). nia.
  - intros Hi. destruct (N.le_gt_cases n (2 ^ 62)) as [Hn|Hn].
    + destruct (C20_path_lem n (NumRows n) (trees n) (N.of_nat r) i Hn ltac:(by apply NumRows_height) (forest_root_rows n) Hi)
        as (j & tr & k & bits & _ & _ & Hr & Hl & Hk & _).
      exists (tr, k). split; [by eapply elem_of_list_lookup_2|]. split; done.
    + clear Hn. remember (N.to_nat (NumRows n) - r)%nat as d eqn:Ed. revert r i Hi Ed. induction d as [|d IH]; intros r i Hi Ed.
      * apply inT_root, trees_elem. split; [done|]. intros Hp%node_row. apply node_row in Hi. lia.
      * destruct (decide (i / 2 < n / 2 ^ (N.of_nat r + 1))) as [Hx|Hx]; rewrite <- node_iff in Hx.
        -- apply inT_kid, IH; [|lia]. by replace (N.of_nat (S r)) with (N.of_nat r + 1) by lia.
        -- apply inT_root, trees_elem. by split.
Qed.
Lemma trees_disj n : disj (trees n).
Proof.
  intros [a b] [a' b'] r i Ht Ht' [Hr Hu] [Hr' Hu']. cbn [fst snd] in *. apply trees_elem in Ht as [Hn Hp]. apply trees_elem in Ht' as [Hn' Hp'].
  assert (Hle : forall a b a' b', N.of_nat r <= a -> a < a' -> i / 2 ^ (a - N.of_nat r) = b -> i / 2 ^ (a' - N.of_nat r) = b' ->
     ~ node n (a + 1) (b / 2) -> ~ node n a' b').
  { clear. intros a b a' b' Ha Hlt Hb Hb' Hp Hn. apply Hp. clear Hp. unfold node in *.
    assert (E : b / 2 / 2 ^ (a' - (a + 1)) = b').
    { rewrite <- Hb, <- Hb'. rewrite !N.div_div by (pose proof (pow_pos (a' - (a + 1))); pose proof (pow_pos (a - N.of_nat r)); nia).
      f_equal. replace (a' - N.of_nat r) with (a - N.of_nat r + 1 + (a' - (a + 1))) by lia. rewrite !N.pow_add_r. lia. }
    remember (b / 2) as c. clear - E Hn Hlt. replace a' with (a + 1 + (a' - (a + 1))) in Hn by lia. rewrite N.pow_add_r in Hn.
    pose proof (pow_pos (a' - (a + 1))) as H1. pose proof (pow_pos (a + 1)) as H2. revert E Hn H1 H2.
    generalize (2 ^ (a' - (a + 1))) (2 ^ (a + 1)). intros P Q E Hn H1 H2.
    pose proof (N.mul_succ_div_gt c P ltac:(lia)). assert (c + 1 <= (b' + 1) * P) by lia. nia. }
  destruct (N.lt_trichotomy a a') as [Hlt|[->|Hlt]].
  - exfalso. exact (Hle a b a' b' Hr Hlt Hu Hu' Hp Hn').
  - congruence.
  - exfalso. exact (Hle a' b' a b Hr' Hlt Hu' Hu Hp' Hn).
Qed.
Lemma trees_up n r x : node n (N.of_nat r) x -> (N.of_nat r, x) ∉ trees n -> node n (N.of_nat (S r)) (x / 2).
Proof. intros Hx Hr. apply trees_under. apply trees_under, inT_cases in Hx as [?|?]; done. Qed.

(** ** The representation relation *)
Definition nc (h : heap) (o : option loc) (b : bool) : option loc :=
  match o with Some l => match h !! l with Some nd => niece nd b | None => None end | None => None end.
Definition hv (h : heap) (l : loc) : hash := match h !! l with Some nd => i_hash nd | None => 0 end.
Definition mark (b : bool) : option loc := if b then Some rem else None.

Definition lmap := nat -> N -> option loc.
Record rep (p : pollard) (T : list (N * N)) (L : lmap) (M : N -> bool) : Prop := {
  rp_disj : disj T;
  rp_roots : pr_node <$> p_roots p = (λ t : N * N, L (N.to_nat t.1) t.2) <$> T;
  rp_root : forall r i, (N.of_nat r, i) ∈ T -> is_Some (L r i);
  rp_dom : forall r i l, inT T r i -> L r i = Some l -> l <> rem /\ l < p_next p /\ is_Some (p_heap p !! l);
  rp_inj : forall r i r' i' l, inT T r i -> inT T r' i' -> L r i = Some l -> L r' i' = Some l -> r = r' /\ i = i';
  rp_kid : forall r x, inT T (S r) (x / 2) -> nc (p_heap p) (L (S r) (hp T (S r) (x / 2))) (N.odd x) = L r x;
  rp_leaf : forall i, inT T 0 i -> nc (p_heap p) (L 0%nat (hp T 0 i)) false = mark (M i);
  rp_leaf' : forall i, inT T 0 i -> nc (p_heap p) (L 0%nat (hp T 0 i)) true = None;
  rp_next : rem < p_next p }.

(** The hashes of the nodes that are present. *)
Definition agree (p : pollard) (T : list (N * N)) (L : lmap) (g : nat -> N -> hash) : Prop :=
  forall r i l, inT T r i -> L r i = Some l -> hv (p_heap p) l = g r i.

Lemma heap_eq (h : heap) (l : loc) (nd : inode) : <[l := nd]> h !! l = Some nd.
Proof. exact (lookup_insert (h : gmap N inode) l nd). Qed.
Lemma heap_ne (h : heap) (l x : loc) (nd : inode) : l <> x -> <[l := nd]> h !! x = h !! x.
Proof. exact (lookup_insert_ne (h : gmap N inode) l x nd). Qed.
Lemma nc_insert h l nd o b : nc (<[l := nd]> h) o b = if decide (o = Some l) then niece nd b else nc h o b.
Proof.
  unfold nc. destruct o as [x|]; [|by rewrite decide_False]. destruct (decide (Some x = Some l)) as [[= ->]|Hne].
  - by rewrite heap_eq.
  - rewrite heap_ne by congruence. done.
Qed.
Lemma hv_insert h l nd x : hv (<[l := nd]> h) x = if decide (x = l) then i_hash nd else hv h x.
Proof.
  unfold hv. destruct (decide (x = l)) as [->|Hne]; [by rewrite heap_eq|]. by rewrite heap_ne.
Qed.
Lemma deref_ok h l nd : h !! l = Some nd -> deref h (Some l) = Ok (l, nd).
Proof. intros E. unfold deref. by rewrite E. Qed.
Lemma nc_some h l nd b : h !! l = Some nd -> nc h (Some l) b = niece nd b.
Proof. intros E. unfold nc. by rewrite E. Qed.
Lemma niece_set_hash nd x b : niece (set_hash nd x) b = niece nd b.
Proof. by destruct b. Qed.
Lemma hash_set_niece nd b v : i_hash (set_niece nd b v) = i_hash nd.
Proof. by destruct b. Qed.

Section Rep.
Context (p : pollard) (T : list (N * N)) (L : lmap) (M : N -> bool) (HR : rep p T L M).
Let Hd := rp_disj _ _ _ _ HR.

Lemma rep_get r i l : inT T r i -> L r i = Some l -> exists nd, p_heap p !! l = Some nd.
Proof. intros Hi Hl. by destruct (rp_dom _ _ _ _ HR _ _ _ Hi Hl) as (_ & _ & [nd ?]); eauto. Qed.
Lemma rep_absent r x : inT T (S r) (x / 2) -> L (S r) (hp T (S r) (x / 2)) = None -> L r x = None /\ L r (hp T r x) = None.
Proof.
  intros Hx Hn. rewrite hp_kid by done. split.
  - rewrite <- (rp_kid _ _ _ _ HR r x Hx), Hn. done.
  - rewrite <- (rp_kid _ _ _ _ HR r (sib x)) by (by rewrite sib_half). by rewrite sib_half, Hn.
Qed.
Lemma rep_absent_down k r i : inT T (k + r) (i / 2 ^ N.of_nat k) -> L (k + r)%nat (hp T (k + r) (i / 2 ^ N.of_nat k)) = None ->
  L r (hp T r i) = None /\ (k <> O -> L r i = None).
Proof.
  revert r i. induction k as [|k IH]; intros r i Hi Hn.
  - cbn [Nat.add] in *. change (2 ^ N.of_nat 0) with 1 in *. rewrite N.div_1_r in *. done.
  - rewrite pow_nat_S, <- N.div_div in Hi, Hn by (pose proof (pow_pos (N.of_nat k)); lia).
    replace (S k + r)%nat with (k + S r)%nat in Hi, Hn by lia. destruct (IH (S r) (i / 2) Hi Hn) as [H1 _].
    assert (Hi' : inT T (S r) (i / 2)).
    { clear - Hi. revert r i Hi. induction k as [|k IHk]; intros r i Hi.
      - cbn [Nat.add] in Hi. change (2 ^ N.of_nat 0) with 1 in Hi. by rewrite N.div_1_r in Hi.
      - rewrite pow_nat_S, <- N.div_div in Hi by (pose proof (pow_pos (N.of_nat k)); lia).
        replace (S k + S r)%nat with (k + S (S r))%nat in Hi by lia. apply inT_kid. by apply IHk. }
    destruct (rep_absent r i Hi' H1). done.
Qed.
Lemma rep_holder r x l : inT T (S r) (x / 2) -> L r x = Some l -> is_Some (L (S r) (hp T (S r) (x / 2))).
Proof.
  intros Hx Hl. destruct (L (S r) (hp T (S r) (x / 2))) eqn:E; [done|]. destruct (rep_absent r x Hx E). congruence.
Qed.

(** ** Reading *)
Section Read.
Context (R : N).
Definition ent (r : nat) (i : N) : pnode := PNode (L r i) (L r (hp T r i)) (enc R (N.of_nat r) i).
Definition ancs (k r : nat) (i : N) : path := (λ m : nat, ent (m + r) (i / 2 ^ N.of_nat m)) <$> seq 1 k.
Lemma ancs_snoc k r i : ancs (S k) r i = ancs k r i ++ [ent (S k + r) (i / 2 ^ N.of_nat (S k))].
Proof. unfold ancs. rewrite seq_S, fmap_app. done. Qed.
Lemma ancs_cons k r i : ancs (S k) r i = ent (S r) (i / 2) :: ancs k (S r) (i / 2).
Proof.
  unfold ancs. cbn [seq]. rewrite fmap_cons. f_equal.
  rewrite <- (seq_shift k 1), <- list_fmap_compose. apply list_fmap_ext. intros j m _. unfold compose.
  rewrite pow_nat_S, <- N.div_div by (pose proof (pow_pos (N.of_nat m)); lia). f_equal. lia.
Qed.
End Read.

Lemma read_loop_ok n bits rec k : forall r i rp, p_n p = n -> n <= 2 ^ 62 -> node n (N.of_nat (k + r)) (i / 2 ^ N.of_nat k) ->
  inT T (k + r) (i / 2 ^ N.of_nat k) -> (k <= 64)%nat ->
  (forall m, m < N.of_nat k -> N.testbit bits m = negb (N.testbit i m)) ->
  exists q, read_loop k (p_heap p) n bits (L (k + r)%nat (i / 2 ^ N.of_nat k)) (L (k + r)%nat (hp T (k + r) (i / 2 ^ N.of_nat k)))
    (enc (NumRows n) (N.of_nat (k + r)) (i / 2 ^ N.of_nat k)) rp rec = Ok (L r i, L r (hp T r i), q) /\
    (rec = true -> (k = O \/ is_Some (L (S r) (hp T (S r) (i / 2)))) -> q = ancs (NumRows n) k r i ++ rp).
Proof.
  induction k as [|k IH]; intros r i rp Hpn Hn62 Hn Hi Hk Hb.
  - cbn [Nat.add read_loop] in *. change (2 ^ N.of_nat 0) with 1 in *. rewrite N.div_1_r in *. exists rp. done.
  - cbn [read_loop]. rewrite shr64_ok by lia. cbn [bind].
    assert (Ebit : N.odd (bits / 2 ^ N.of_nat k) = negb (N.odd (i / 2 ^ N.of_nat k))).
    { rewrite <- !N.shiftr_div_pow2, <- !N.bit0_odd, !N.shiftr_spec', N.add_0_l. apply Hb. lia. }
    rewrite Ebit, negb_involutive.
    assert (E2 : i / 2 ^ N.of_nat (S k) = i / 2 ^ N.of_nat k / 2).
    { replace (N.of_nat (S k)) with (N.of_nat k + 1) by lia. apply div_pow_S. }
    remember (i / 2 ^ N.of_nat k) as x eqn:Ex. rewrite E2 in *. cbn [Nat.add] in *.
    destruct (L (S (k + r)) (hp T (S (k + r)) (x / 2))) as [l|] eqn:El.
    + destruct (rep_get _ _ _ (inT_hp _ _ _ Hd Hi) El) as [nd End]. rewrite (deref_ok _ _ _ End). cbn [bind snd].
      assert (Hsl : slot (NumRows n) (N.of_nat (k + r) + 1) (x / 2)).
      { apply node_slot. by replace (N.of_nat (k + r) + 1) with (N.of_nat (S (k + r))) by lia. }
      replace (N.of_nat (S (k + r))) with (N.of_nat (k + r) + 1) by lia.
      rewrite Child_ok by (done || destruct (N.odd x); lia). cbn [bind].
      assert (Exb : 2 * (x / 2) + (if N.odd x then 1 else 0) = x).
      { rewrite odd_mod. destruct (N.eqb_spec (x mod 2) 1); dlia. }
      rewrite Exb.
      assert (E3 : niece nd (N.odd x) = L (k + r)%nat x).
      { rewrite <- (rp_kid _ _ _ _ HR (k + r) x Hi), El. symmetry. by apply nc_some. }
      assert (E4 : niece nd (negb (N.odd x)) = L (k + r)%nat (hp T (k + r) x)).
      { rewrite hp_kid by done. rewrite <- (rp_kid _ _ _ _ HR (k + r) (sib x)) by (by rewrite sib_half).
        rewrite sib_half, odd_sib, El. symmetry. by apply nc_some. }
      rewrite E3, E4.
      assert (Hnx : node n (N.of_nat (k + r)) x).
      { replace (N.of_nat (S (k + r))) with (N.of_nat (k + r) + 1) in Hn by lia. apply node_child in Hn as [Hn1 Hn2].
        destruct (two_half x) as [->| ->]; done. }
      rewrite Ex in *.
      destruct (IH r i (if rec then PNode (L (S (k + r)) (i / 2 ^ N.of_nat k / 2)) (Some l) (enc (NumRows n) (N.of_nat (k + r) + 1) (i / 2 ^ N.of_nat k / 2)) :: rp else rp)
        Hpn Hn62 Hnx ltac:(by apply inT_kid) ltac:(lia)) as (q & Eq & Hq).
      { intros m Hm. apply Hb. lia. }
      exists q. split; [exact Eq|]. intros Hrec Hs. rewrite (Hq Hrec).
      * rewrite Hrec. rewrite ancs_snoc, <- app_assoc. f_equal. cbn [app]. f_equal. unfold ent. rewrite E2. cbn [Nat.add].
        rewrite El. f_equal. f_equal. lia.
      * destruct Hs as [?|Hs]; [done|]. right. done.
    + destruct (rep_absent_down (S k) r i) as [H1 H2].
      { cbn [Nat.add]. by rewrite E2. }
      { cbn [Nat.add]. by rewrite E2. }
      rewrite H1, H2 by done. eexists. split; [done|]. intros Hrec [?|Hs]; [done|]. exfalso.
      destruct k as [|k].
      * change (2 ^ N.of_nat 0) with 1 in Ex. rewrite N.div_1_r in Ex. subst x. cbn [Nat.add] in El. rewrite El in Hs. by destruct Hs.
      * destruct (rep_absent_down (S k) (S r) (i / 2)) as [H3 _]; [| |rewrite H3 in Hs; by destruct Hs].
        -- replace (S k + S r)%nat with (S (S k + r)) by lia. rewrite N.div_div by (pose proof (pow_pos (N.of_nat (S k))); lia).
           rewrite <- pow_nat_S. by rewrite pow_nat_S, (N.mul_comm 2), <- N.div_div, <- Ex by (pose proof (pow_pos (N.of_nat (S k))); lia).
        -- replace (S k + S r)%nat with (S (S k + r)) by lia. rewrite N.div_div by (pose proof (pow_pos (N.of_nat (S k))); lia).
           by rewrite (N.mul_comm 2), <- N.div_div, <- Ex by (pose proof (pow_pos (N.of_nat (S k))); lia).
Qed.
End Rep.
