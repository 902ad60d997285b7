(** * PollardOps: reading, swapping and rehashing in a pollard (proofs) *)
From stdpp Require Import sorting.
From Verif Require Import Base StateModel ForestModel PollardModel PosmapFacts PosSpec PosFacts PathFacts MerkleSpec ForestFacts RowFacts
  TransformFacts RemoveFacts ForestInv PollardRep.
From Coq Require Import ZifyBool ZifyNat ZifyN.
Ltac Zify.zify_post_hook ::= idtac.
Ltac dlia := zify; Z.div_mod_to_equations; lia.

(** ** Heap updates *)
Lemma is_Some_insert (h : heap) (l x : loc) nd : is_Some (h !! l) -> is_Some (<[l := nd]> h !! x) <-> is_Some (h !! x).
Proof.
  intros Hl. destruct (decide (x = l)) as [->|Hne]; [rewrite heap_eq; split; done|]. by rewrite heap_ne by done.
Qed.
Lemma swap_hash_ok (h : heap) (a b : loc) : is_Some (h !! a) -> is_Some (h !! b) -> a <> b ->
  exists h', swap_hash h (Some a) (Some b) = Ok h' /\ (forall o c, nc h' o c = nc h o c) /\
    (forall l, hv h' l = if decide (l = a) then hv h b else if decide (l = b) then hv h a else hv h l) /\
    (forall l, is_Some (h' !! l) <-> is_Some (h !! l)).
Proof.
  intros [na Ea] [nb Eb] Hab. unfold swap_hash. rewrite (deref_ok _ _ _ Ea), (deref_ok _ _ _ Eb). cbn [bind fst snd].
  rewrite (deref_ok _ b nb) by (by rewrite heap_ne). cbn [bind fst snd]. eexists. split; [done|]. split; [|split].
  - intros o c. rewrite !nc_insert. destruct (decide (o = Some b)) as [->|]; [by rewrite niece_set_hash, (nc_some _ _ _ _ Eb)|].
    destruct (decide (o = Some a)) as [->|]; [by rewrite niece_set_hash, (nc_some _ _ _ _ Ea)|done].
  - intros l. rewrite !hv_insert. cbn [i_hash set_hash]. destruct (decide (l = b)) as [->|Hlb].
    + rewrite decide_False by done. unfold hv. by rewrite Ea.
    + destruct (decide (l = a)) as [->|]; [|done]. unfold hv. by rewrite Eb.
  - intros l. rewrite !is_Some_insert; [done|by eexists|]. apply is_Some_insert; by eexists.
Qed.
Lemma swap_nieces_ok (h : heap) (a b : loc) : is_Some (h !! a) -> is_Some (h !! b) -> a <> b ->
  exists h', swap_nieces h (Some a) (Some b) = Ok h' /\
    (forall o c, nc h' o c = if decide (o = Some a) then nc h (Some b) c else if decide (o = Some b) then nc h (Some a) c else nc h o c) /\
    (forall l, hv h' l = hv h l) /\ (forall l, is_Some (h' !! l) <-> is_Some (h !! l)).
Proof.
  intros [na Ea] [nb Eb] Hab. unfold swap_nieces. rewrite (deref_ok _ _ _ Ea), (deref_ok _ _ _ Eb). cbn [bind fst snd].
  rewrite (deref_ok _ b nb) by (by rewrite heap_ne). cbn [bind fst snd]. eexists. split; [done|]. split; [|split].
  - intros o c. rewrite !nc_insert. destruct (decide (o = Some b)) as [->|Hb].
    + rewrite decide_False by congruence. rewrite (nc_some _ _ _ _ Ea). by destruct c.
    + destruct (decide (o = Some a)) as [->|]; [|done]. rewrite (nc_some _ _ _ _ Eb). by destruct c.
  - intros l. rewrite !hv_insert. cbn [i_hash]. destruct (decide (l = b)) as [->|]; [unfold hv; by rewrite Eb|].
    destruct (decide (l = a)) as [->|]; [unfold hv; by rewrite Ea|done].
  - intros l. rewrite !is_Some_insert; [done|by eexists|]. apply is_Some_insert; by eexists.
Qed.

(** ** Subtrees and siblings *)
Lemma lift_half d g x : lift (d + 1) g x / 2 = lift d g (x / 2) /\ lift (d + 1) g x mod 2 = x mod 2.
Proof.
  unfold lift. rewrite pow_S. rewrite (N.div_div x 2) by (pose proof (pow_pos d); lia).
  pose proof (pow_pos d) as Hp. generalize (g (x / (2 * 2 ^ d))). intros y. revert Hp. generalize (2 ^ d). intros P HP.
  assert (E : x mod (2 * P) = 2 * ((x / 2) mod P) + x mod 2).
  { rewrite N.mod_mul_r by lia. lia. }
  rewrite E. remember ((x / 2) mod P) as z. assert (x mod 2 < 2) by dlia. remember (x mod 2) as w. clear Heqw Heqz E.
  replace (y * (2 * P) + (2 * z + w)) with (2 * (y * P + z) + w) by lia. split; dlia.
Qed.
Lemma swt_half j a b r x : (r < j)%nat -> swt j a b r x / 2 = swt j a b (S r) (x / 2) /\ N.odd (swt j a b r x) = N.odd x.
Proof.
  intros Hr. rewrite !swt_lift by lia. replace (N.of_nat (j - r)) with (N.of_nat (j - S r) + 1) by lia.
  destruct (lift_half (N.of_nat (j - S r)) (sw a b) x) as [H1 H2]. split; [done|]. by rewrite !odd_mod, H2.
Qed.
Lemma swt_self j a b x : swt j a b j x = sw a b x.
Proof. unfold swt. destruct (Nat.leb_spec j j); [|lia]. rewrite Nat.sub_diag. change (2 ^ N.of_nat 0) with 1. rewrite N.div_1_r, N.mod_1_r. lia. Qed.
Lemma swt_above j a b r x : (j < r)%nat -> swt j a b r x = x.
Proof. intros Hr. unfold swt. destruct (Nat.leb_spec r j); [lia|done]. Qed.
Lemma half_odd x y : x / 2 = y / 2 -> N.odd x = N.odd y -> x = y.
Proof. rewrite !odd_mod. destruct (N.eqb_spec (x mod 2) 1), (N.eqb_spec (y mod 2) 1); intros; try done; dlia. Qed.
Lemma swt_sib j a b r x : (r < j)%nat -> swt j a b r (sib x) = sib (swt j a b r x).
Proof.
  intros Hr. destruct (swt_half j a b r x Hr) as [H1 H2]. destruct (swt_half j a b r (sib x) Hr) as [H3 H4].
  apply half_odd; [by rewrite sib_half, H1, H3, sib_half|]. by rewrite H4, !odd_sib, H2.
Qed.

(** ** Changing hashes, pruning *)
Lemma rep_heap p T L M h : rep p T L M -> (forall o c, nc h o c = nc (p_heap p) o c) ->
  (forall l, is_Some (h !! l) <-> is_Some (p_heap p !! l)) -> rep (p_set_heap p h) T L M.
Proof.
  intros HR Hn Hi. split; cbn [p_heap p_set_heap p_roots p_next].
  - apply (rp_disj _ _ _ _ HR).
  - apply (rp_roots _ _ _ _ HR).
  - apply (rp_root _ _ _ _ HR).
  - intros r i l H1 H2. destruct (rp_dom _ _ _ _ HR r i l H1 H2) as (? & ? & ?). split_and!; [done..|]. by apply Hi.
  - apply (rp_inj _ _ _ _ HR).
  - intros r x Hx. rewrite Hn. by apply (rp_kid _ _ _ _ HR).
  - intros i Hx. rewrite Hn. by apply (rp_leaf _ _ _ _ HR).
  - intros i Hx. rewrite Hn. by apply (rp_leaf' _ _ _ _ HR).
  - apply (rp_next _ _ _ _ HR).
Qed.

(** A node without nieces, that is whose sibling has no children, is dropped. *)
Definition kept (L : lmap) (M : N -> bool) (r : nat) (x : N) : bool :=
  match r with
  | O => M (sib x)
  | S r' => negb (is_null (L r' (2 * sib x))) || negb (is_null (L r' (2 * sib x + 1)))
  end.
Definition Lpr (L : lmap) (M : N -> bool) (r : nat) (d : N) : lmap := fun r' x =>
  if (r' =? r)%nat && (x / 2 =? d) then (if kept L M r x then L r x else None) else L r' x.
Lemma Lpr_row L M r d r' x : r' <> r -> Lpr L M r d r' x = L r' x.
Proof. intros Hr. unfold Lpr. destruct (Nat.eqb_spec r' r); done. Qed.
Lemma Lpr_far L M r d r' x : x / 2 <> d -> Lpr L M r d r' x = L r' x.
Proof. intros Hr. unfold Lpr. destruct (N.eqb_spec (x / 2) d); [done|]. by rewrite andb_false_r. Qed.
Lemma Lpr_at L M r d x : x / 2 = d -> Lpr L M r d r x = if kept L M r x then L r x else None.
Proof. intros <-. unfold Lpr. by rewrite Nat.eqb_refl, N.eqb_refl. Qed.
Lemma Lpr_sub L M r d r' x l : Lpr L M r d r' x = Some l -> L r' x = Some l.
Proof.
  unfold Lpr. destruct (Nat.eqb_spec r' r) as [->|]; [|done]. cbn [andb]. destruct (x / 2 =? d); [|done]. by destruct (kept L M r x).
Qed.

Lemma kept_ok p T L M r x l nd : rep p T L M -> inT T (S r) (x / 2) -> L r x = Some l -> p_heap p !! l = Some nd ->
  dead_end nd = negb (kept L M r x).
Proof.
  intros HR Hx Hl Hnd. pose proof (rp_disj _ _ _ _ HR) as Hd.
  assert (E0 : nc (p_heap p) (L r x) false = i_l nd /\ nc (p_heap p) (L r x) true = i_r nd).
  { rewrite Hl. by rewrite !(nc_some _ _ _ _ Hnd). }
  unfold dead_end. destruct E0 as [<- <-]. clear Hl Hnd.
  assert (Ehp : x = hp T r (sib x)). { rewrite hp_kid; [by rewrite sib_sib|done|by rewrite sib_half]. }
  destruct r as [|r]; cbn [kept].
  - assert (Hs : inT T 0 (sib x)) by (by apply inT_sib).
    rewrite Ehp. rewrite (rp_leaf _ _ _ _ HR) by done. rewrite (rp_leaf' _ _ _ _ HR) by done. rewrite <- Ehp. by destruct (M (sib x)).
  - assert (Hs : inT T (S r) (sib x)) by (by apply inT_sib).
    rewrite Ehp. pose proof (rp_kid _ _ _ _ HR r (2 * sib x)) as H1. pose proof (rp_kid _ _ _ _ HR r (2 * sib x + 1)) as H2.
    destruct (half_2 (sib x)) as [E1 E2]. destruct (odd_2 (sib x)) as [E3 E4]. rewrite E1, E3 in H1. rewrite E2, E4 in H2.
    rewrite H1, H2 by done. rewrite <- Ehp. by destruct (L r (2 * sib x)), (L r (2 * sib x + 1)).
Qed.

Lemma prune_ok p T L M r d s : rep p T L M -> inT T (S r) d -> L (S r) (hp T (S r) d) = Some s ->
  exists h, prune_node (p_heap p) s = Ok h /\ rep (p_set_heap p h) T (Lpr L M r d) M /\ (forall l, hv h l = hv (p_heap p) l).
Proof.
  intros HR Hi Hs. pose proof (rp_disj _ _ _ _ HR) as Hd.
  assert (Hhp := inT_hp _ _ _ Hd Hi). destruct (rep_get p T L M HR _ _ _ Hhp Hs) as [nd End].
  assert (Hkid : forall x, x / 2 = d -> niece nd (N.odd x) = L r x).
  { intros x Hx. rewrite <- (rp_kid _ _ _ _ HR r x) by (by rewrite Hx). rewrite Hx, Hs. symmetry. by apply nc_some. }
  assert (Hptr : forall x, x / 2 = d -> prune_ptr (p_heap p) (L r x) = Ok (Lpr L M r d r x)).
  { intros x Hx. rewrite Lpr_at by done. unfold prune_ptr. destruct (L r x) as [l|] eqn:El; [|by destruct (kept L M r x)].
    assert (HxT : inT T (S r) (x / 2)) by (by rewrite Hx).
    destruct (rep_get p T L M HR r x l) as [ni Ei]; [by apply inT_kid|done|]. rewrite (deref_ok _ _ _ Ei). cbn [bind snd].
    rewrite (kept_ok p T L M r x l ni) by done. by destruct (kept L M r x). }
  unfold prune_node. rewrite (deref_ok _ _ _ End). cbn [bind snd].
  destruct (half_2 d) as [E1 E2]. destruct (odd_2 d) as [E3 E4].
  pose proof (Hkid (2 * d) E1) as K1. rewrite E3 in K1. pose proof (Hkid (2 * d + 1) E2) as K2. rewrite E4 in K2. cbn [niece] in K1, K2.
  rewrite K1, K2. rewrite (Hptr _ E1), (Hptr _ E2). cbn [bind]. eexists. split; [done|].
  remember (<[s := _]> (p_heap p)) as h eqn:Eh.
  assert (Hnc : forall r' x c, inT T r' x -> (r' = S r /\ x = hp T (S r) d -> False) -> nc h (L r' x) c = nc (p_heap p) (L r' x) c).
  { intros r' x c Hx Hne. rewrite Eh, nc_insert. rewrite decide_False; [done|]. intros E. apply Hne.
    exact (rp_inj _ _ _ _ HR _ _ _ _ _ Hx Hhp E Hs). }
  assert (Hdrop : forall r' x, inT T r' x -> Lpr L M r d r' x = L r' x \/
     (Lpr L M r d r' x = None /\ r' = r /\ x / 2 = d /\ kept L M r x = false)).
  { intros r' x Hx. unfold Lpr. destruct (Nat.eqb_spec r' r) as [->|]; [|by left]. cbn [andb].
    destruct (N.eqb_spec (x / 2) d); [|by left]. destruct (kept L M r x); [by left|by right]. }
  split; [split; cbn [p_heap p_set_heap p_roots p_next]|].
  - done.
  - rewrite (rp_roots _ _ _ _ HR). apply list_fmap_ext. intros k t Ht%elem_of_list_lookup_2.
    assert (Ht' : (N.of_nat (N.to_nat t.1), t.2) ∈ T) by (rewrite N2Nat.id; by destruct t).
    destruct (Hdrop (N.to_nat t.1) t.2 (inT_root _ _ _ Ht')) as [->|(_ & Er & Ed & _)]; [done|]. exfalso. rewrite Er in Ht'.
    apply (kid_not_root T r t.2 Hd); [by rewrite Ed|done].
  - intros r' i Hr. destruct (Hdrop r' i (inT_root _ _ _ Hr)) as [->|(_ & -> & Ed & _)]; [by apply (rp_root _ _ _ _ HR)|].
    exfalso. apply (kid_not_root T r i Hd); [by rewrite Ed|done].
  - intros r' i l Hx Hl%Lpr_sub. destruct (rp_dom _ _ _ _ HR _ _ _ Hx Hl) as (? & ? & ?). split_and!; [done..|].
    rewrite Eh. apply is_Some_insert; [by eexists|done].
  - intros r1 i1 r2 i2 l H1 H2 Hl1%Lpr_sub Hl2%Lpr_sub. by eapply (rp_inj _ _ _ _ HR).
  - intros r' x Hx. destruct (Hdrop _ _ (inT_hp _ _ _ Hd Hx)) as [->|(-> & Er & Ed & Hk)].
    + destruct (decide (r' = r)) as [->|Hr].
      * destruct (decide (x / 2 = d)) as [Exd|Exd].
        -- rewrite Exd, Hs, Eh, nc_insert, decide_True by done. destruct (two_half x) as [Ex|Ex]; rewrite Exd in Ex; rewrite Ex.
           ++ rewrite E3. cbn [niece i_l]. done.
           ++ rewrite E4. cbn [niece i_r]. done.
        -- rewrite (Lpr_far L M r d r x) by done. rewrite Hnc; [by apply (rp_kid _ _ _ _ HR)|by apply inT_hp|].
           intros [_ E]. by apply hp_inj in E.
      * rewrite (Lpr_row L M r d r' x) by done. rewrite Hnc; [by apply (rp_kid _ _ _ _ HR)|by apply inT_hp|].
        intros [E _]. lia.
    + subst r. rewrite Lpr_row by lia. cbn [nc]. rewrite hp_half in Ed.
      assert (Hd' : inT T (S (S r')) (x / 2 / 2)) by (by rewrite Ed).
      rewrite hp_kid in Hk by done. cbn [kept] in Hk. rewrite sib_sib in Hk.
      destruct (two_half x) as [Ex|Ex]; rewrite Ex.
      * destruct (L r' (2 * (x / 2))); [done|done].
      * destruct (L r' (2 * (x / 2) + 1)); [|done]. destruct (L r' (2 * (x / 2))); done.
  - intros i Hx. destruct (Hdrop _ _ (inT_hp _ _ _ Hd Hx)) as [->|(-> & Er & Ed & Hk)].
    + rewrite Hnc; [by apply (rp_leaf _ _ _ _ HR)|by apply inT_hp|lia].
    + subst r. cbn [nc]. rewrite hp_half in Ed. cbn [kept] in Hk. rewrite hp_kid, sib_sib in Hk by (done || by rewrite Ed). by rewrite Hk.
  - intros i Hx. destruct (Hdrop _ _ (inT_hp _ _ _ Hd Hx)) as [->|(-> & Er & Ed & Hk)]; [|done].
    rewrite Hnc; [by apply (rp_leaf' _ _ _ _ HR)|by apply inT_hp|lia].
  - apply (rp_next _ _ _ _ HR).
  - intros l. rewrite Eh, hv_insert. cbn [i_hash]. destruct (decide (l = s)) as [->|]; [|done]. unfold hv. by rewrite End.
Qed.

Definition gset (g : nat -> N -> hash) (r : nat) (i : N) (v : hash) : nat -> N -> hash :=
  fun r' x => if (r' =? r)%nat && (x =? i) then v else g r' x.
Lemma gset_eq g r i v : gset g r i v r i = v.
Proof. unfold gset. by rewrite Nat.eqb_refl, N.eqb_refl. Qed.
Lemma gset_ne g r i v r' x : (r' = r /\ x = i -> False) -> gset g r i v r' x = g r' x.
Proof. intros Hne. unfold gset. destruct (Nat.eqb_spec r' r); [|done]. destruct (N.eqb_spec x i); [|done]. exfalso. by apply Hne. Qed.

Section ReHash.
Context (H : hash -> hash -> hash).
Lemma ReHash_both p T L M g R r d : rep p T L M -> agree p T L g -> inT T (S r) d ->
  is_Some (L (S r) d) -> is_Some (L (S r) (hp T (S r) d)) -> is_Some (L r (2 * d)) -> is_Some (L r (2 * d + 1)) ->
  exists h, P_ReHash H p (ent T L R (S r) d) = Ok (p_set_heap p h) /\ rep (p_set_heap p h) T (Lpr L M r d) M /\
    agree (p_set_heap p h) T (Lpr L M r d) (gset g (S r) d (H (g r (2 * d)) (g r (2 * d + 1)))).
Proof.
  intros HR Hg Hi [l El] [s Es] [a Ea] [b Eb]. pose proof (rp_disj _ _ _ _ HR) as Hd.
  assert (Hhp := inT_hp _ _ _ Hd Hi). destruct (rep_get p T L M HR _ _ _ Hhp Es) as [nd End].
  destruct (rep_get p T L M HR _ _ _ Hi El) as [ni Eni].
  destruct (half_2 d) as [E1 E2]. destruct (odd_2 d) as [E3 E4].
  assert (HaT : inT T r (2 * d)) by (apply inT_kid; by rewrite E1). assert (HbT : inT T r (2 * d + 1)) by (apply inT_kid; by rewrite E2).
  destruct (rep_get p T L M HR _ _ _ HaT Ea) as [na Ena]. destruct (rep_get p T L M HR _ _ _ HbT Eb) as [nb Enb].
  unfold P_ReHash, ent. cbn [pn_sib pn_node]. rewrite Es, (deref_ok _ _ _ End). cbn [bind fst snd].
  assert (Kl : i_l nd = Some a).
  { pose proof (rp_kid _ _ _ _ HR r (2 * d)) as K. rewrite E1, E3, Es, Ea, (nc_some _ _ _ _ End) in K. by apply K. }
  assert (Kr : i_r nd = Some b).
  { pose proof (rp_kid _ _ _ _ HR r (2 * d + 1)) as K. rewrite E2, E4, Es, Eb, (nc_some _ _ _ _ End) in K. by apply K. }
  rewrite Kl, Kr. cbn [is_null orb]. rewrite (deref_ok _ _ _ Ena), (deref_ok _ _ _ Enb), El, (deref_ok _ _ _ Eni). cbn [bind fst snd].
  remember (<[l := _]> (p_heap p)) as h1 eqn:Eh1.
  assert (HR1 : rep (p_set_heap p h1) T L M).
  { apply rep_heap; [done| |].
    - intros o c. rewrite Eh1, nc_insert. destruct (decide (o = Some l)) as [->|]; [|done]. by rewrite niece_set_hash, (nc_some _ _ _ _ Eni).
    - intros x. rewrite Eh1. apply is_Some_insert. by eexists. }
  destruct (prune_ok (p_set_heap p h1) T L M r d s HR1 Hi Es) as (h & Eh & HR' & Hv). cbn [p_heap p_set_heap] in Eh, Hv. rewrite Eh. cbn [bind].
  exists h. split; [done|]. split; [by destruct HR'|].
  intros r' x l' Hx Hl'%Lpr_sub. cbn [p_heap p_set_heap]. rewrite Hv, Eh1, hv_insert. cbn [i_hash set_hash].
  destruct (decide (l' = l)) as [->|Hne].
  - destruct (rp_inj _ _ _ _ HR _ _ _ _ _ Hx Hi Hl' El) as [-> ->]. rewrite gset_eq.
    pose proof (Hg _ _ _ HaT Ea) as Ga. pose proof (Hg _ _ _ HbT Eb) as Gb. unfold hv in Ga, Gb. rewrite Ena in Ga. rewrite Enb in Gb. congruence.
  - rewrite gset_ne; [by apply Hg|]. intros [-> ->]. congruence.
Qed.
Lemma ReHash_skip p T L M R r d : rep p T L M -> inT T (S r) d -> is_Some (L (S r) (hp T (S r) d)) ->
  (L r (2 * d) = None \/ L r (2 * d + 1) = None) -> P_ReHash H p (ent T L R (S r) d) = Ok p.
Proof.
  intros HR Hi [s Es] Hnone. pose proof (rp_disj _ _ _ _ HR) as Hd.
  assert (Hhp := inT_hp _ _ _ Hd Hi). destruct (rep_get p T L M HR _ _ _ Hhp Es) as [nd End].
  destruct (half_2 d) as [E1 E2]. destruct (odd_2 d) as [E3 E4].
  unfold P_ReHash, ent. cbn [pn_sib pn_node]. rewrite Es, (deref_ok _ _ _ End). cbn [bind fst snd].
  pose proof (rp_kid _ _ _ _ HR r (2 * d)) as K. rewrite E1, E3, Es, (nc_some _ _ _ _ End) in K. specialize (K Hi). cbn [niece] in K.
  pose proof (rp_kid _ _ _ _ HR r (2 * d + 1)) as K'. rewrite E2, E4, Es, (nc_some _ _ _ _ End) in K'. specialize (K' Hi). cbn [niece] in K'.
  rewrite K, K'. destruct Hnone as [-> | ->]; cbn [is_null orb]; [done|]. by rewrite orb_true_r.
Qed.
End ReHash.

Section Ops.
Context (n : N) (Hn : n <= 2 ^ 62).
Notation R := (NumRows n).
Notation T := (trees n).
Let Hd : disj T := trees_disj n.

Lemma ReadSiblings_ok p L M rec r i : p_n p = n -> rep p T L M -> node n (N.of_nat r) i ->
  exists k q, P_ReadSiblings p (enc R (N.of_nat r) i) rec = Ok (L r i, L r (hp T r i), q) /\
    (N.of_nat (k + r), i / 2 ^ N.of_nat k) ∈ T /\
    (rec = true -> (k = O \/ is_Some (L (S r) (hp T (S r) (i / 2)))) -> q = ancs T L R k r i).
Proof.
  intros Hpn HR Hi. unfold P_ReadSiblings. rewrite Hpn.
  destruct (C20_path_lem n R T (N.of_nat r) i Hn ltac:(by apply NumRows_height) (forest_root_rows n) Hi)
    as (j & tr & k & bits & E & _ & Hr & Hl & Hk & Hb).
  rewrite E. cbn [bind]. rewrite RootPositions_ok by done. fold (trees n). cbn [bind].
  assert (E1 : vec_get ((λ t : N * N, enc R t.1 t.2) <$> T) (N.of_nat j) = Ok (enc R tr k)).
  { unfold vec_get. rewrite Nat2N.id, list_lookup_fmap, Hl. done. }
  rewrite E1. cbn [bind].
  assert (E2 : exists rt, vec_get (p_roots p) (N.of_nat j) = Ok rt /\ pr_node rt = L (N.to_nat tr) k).
  { pose proof (rp_roots _ _ _ _ HR) as Hr0. apply (f_equal (fun l => l !! j)) in Hr0. rewrite !list_lookup_fmap, Hl in Hr0.
    destruct (p_roots p !! j) as [rt|] eqn:Er; [|done]. cbn [fmap option_fmap option_map fst snd] in Hr0. apply (inj Some) in Hr0.
    exists rt. split; [|done]. unfold vec_get. by rewrite Nat2N.id, Er. }
  destruct E2 as (rt & -> & Ert). cbn [bind]. rewrite Ert.
  assert (Ht : (tr, k) ∈ T) by (by eapply elem_of_list_lookup_2). assert (Htn := Ht). apply trees_node in Htn as [Htn _]. cbn [fst snd] in Htn.
  remember (N.to_nat (tr - N.of_nat r)) as m eqn:Em.
  assert (Etr : tr = N.of_nat (m + r)) by lia. assert (Ekm : k = i / 2 ^ N.of_nat m) by (rewrite <- Hk, Em; f_equal; f_equal; lia).
  replace (N.to_nat tr) with (m + r)%nat by lia. rewrite Etr, Ekm in *.
  pose proof (node_row _ _ _ Htn) as Hrow. pose proof (R62 n Hn) as HR62.
  destruct (read_loop_ok p T L M HR n bits rec m r i [] Hpn Hn Htn ltac:(by apply inT_root) ltac:(lia)) as (q & Eq & Hq).
  { intros x Hx. apply Hb. lia. }
  rewrite hp_root in Eq by done. exists m, q. split; [exact Eq|]. split; [done|]. intros H1 H2. rewrite Hq by done. apply app_nil_r.
Qed.

Lemma P_Read_ok p L M r i : p_n p = n -> rep p T L M -> node n (N.of_nat r) i ->
  P_Read p (enc R (N.of_nat r) i) = Ok (hv (p_heap p) <$> L r i).
Proof.
  intros Hpn HR Hi. unfold P_Read. destruct (ReadSiblings_ok p L M false r i Hpn HR Hi) as (k & q & E & _). rewrite E. cbn [bind fst snd].
  destruct (L r i) as [l|] eqn:El; [|done].
  destruct (rep_get p T L M HR r i l) as [nd End]; [by apply trees_under|done|].
  rewrite (deref_ok _ _ _ End). cbn [bind snd]. cbn. unfold hv. by rewrite End.
Qed.
Lemma P_ReadLeafRange_ok p L M a k : p_n p = n -> rep p T L M -> a + k <= n ->
  exists hs, P_ReadLeafRange p a k = Ok hs.
Proof.
  intros Hpn HR Hk. unfold P_ReadLeafRange.
  assert (Hall : forall x, x ∈ nseq a k -> x < n) by (intros x Hx%nseq_elem; lia).
  induction (nseq a k) as [|x l IH]; [by exists []|]. cbn [p_read_all].
  assert (Hx : x < n) by (apply Hall; left).
  pose proof (P_Read_ok p L M 0 x Hpn HR) as E. change (N.of_nat 0) with 0 in E. rewrite enc_0 in E.
  rewrite E by (unfold node; change (2 ^ 0) with 1; lia). cbn [bind].
  destruct IH as [hs ->]; [intros y Hy; apply Hall; by right|]. cbn [bind]. destruct (hv (p_heap p) <$> L 0%nat x); eauto.
Qed.

(** Nothing in the representation depends on the position map or the number of leaves. *)
Lemma rep_posmap p T L M m : rep p T L M -> rep (p_set_posmap p m) T L M.
Proof. by intros []. Qed.
Lemma rep_set_n p T L M m : rep p T L M -> rep (p_set_n p m) T L M.
Proof. by intros []. Qed.
Lemma agree_posmap p T L g m : agree p T L g -> agree (p_set_posmap p m) T L g.
Proof. done. Qed.

Lemma P_UpdatePositionMap_ok p L M j a b : p_n p = n -> rep p T L M -> node n (N.of_nat j) a -> node n (N.of_nat j) b ->
  exists m, P_UpdatePositionMapForSubtreeSwap p (enc R (N.of_nat j) a) (enc R (N.of_nat j) b) = Ok (p_set_posmap p m).
Proof.
  intros Hpn HR Ha Hb. unfold P_UpdatePositionMapForSubtreeSwap. rewrite Hpn.
  pose proof (node_slot _ _ _ Ha) as Hsa. pose proof (node_slot _ _ _ Hb) as Hsb. pose proof (R62 n Hn) as HR62.
  rewrite DetectRow_ok by done. cbn [bind].
  pose proof (LeftDescendant_ok n Hn 0 a (N.of_nat j)) as El. rewrite N.add_0_l, enc_0 in El. rewrite El by done. cbn [bind]. clear El.
  pose proof (LeftDescendant_ok n Hn 0 b (N.of_nat j)) as El. rewrite N.add_0_l, enc_0 in El. rewrite El by done. cbn [bind].
  pose proof (node_row _ _ _ Ha) as Hrow.
  rewrite shl64_ok by lia. rewrite N.mul_1_l, w64_small by (apply pow_R_64; lia). cbn [bind].
  unfold P_UpdatePositionMapForRange. destruct (_ =? 0); [exists (p_posmap p); by destruct p|].
  unfold node in Ha, Hb.
  destruct (P_ReadLeafRange_ok p L M (a * 2 ^ N.of_nat j) (2 ^ N.of_nat j) Hpn HR ltac:(lia)) as [x ->]. cbn [bind].
  destruct (P_ReadLeafRange_ok p L M (b * 2 ^ N.of_nat j) (2 ^ N.of_nat j) Hpn HR ltac:(lia)) as [y ->]. cbn [bind]. eauto.
Qed.

(** If every leaf is marked, every leaf can be read, and the position map stays the
    inverse of the leaf row. *)
Definition pm_right (p : pollard) (g : nat -> N -> hash) : Prop := forall h x, p_posmap p !! h = Some x <-> x < n /\ g 0%nat x = h.
Lemma marked_stored p L M : rep p T L M -> (forall x, x < n -> M x = true) -> forall x, x < n -> is_Some (L 0%nat x).
Proof.
  intros HR HM x Hx. assert (HT : inT T 0 x) by (apply trees_under; unfold node; change (2 ^ N.of_nat 0) with 1; lia).
  assert (HT' : inT T 0 (hp T 0 x)) by (apply inT_hp; [apply HR|done]). assert (Hlt : hp T 0 x < n) by (apply trees_under in HT'; unfold node in HT'; change (2 ^ N.of_nat 0) with 1 in HT'; lia).
  pose proof (rp_leaf _ _ _ _ HR _ HT') as E. rewrite (HM _ Hlt), hp_hp in E by (apply HR || done). destruct (L 0%nat x); [by eexists|done].
Qed.
Lemma P_ReadLeafRange_full p L M g a k : p_n p = n -> rep p T L M -> agree p T L g -> (forall x, x < n -> M x = true) -> a + k <= n ->
  P_ReadLeafRange p a k = Ok (g 0%nat <$> nseq a k).
Proof.
  intros Hpn HR Hg HM Hk. unfold P_ReadLeafRange.
  assert (Hall : forall x, x ∈ nseq a k -> x < n) by (intros x Hx%nseq_elem; lia).
  induction (nseq a k) as [|x l IH]; [done|]. cbn [p_read_all].
  assert (Hx : x < n) by (apply Hall; left).
  pose proof (P_Read_ok p L M 0 x Hpn HR) as E. change (N.of_nat 0) with 0 in E. rewrite enc_0 in E.
  rewrite E by (unfold node; change (2 ^ 0) with 1; lia). cbn [bind].
  rewrite IH by (intros y Hy; apply Hall; by right). cbn [bind].
  destruct (marked_stored p L M HR HM x Hx) as [l' El]. rewrite El. cbn [fmap option_fmap option_map]. rewrite (Hg 0%nat x l'); [done| |done].
  apply trees_under. unfold node. change (2 ^ N.of_nat 0) with 1. lia.
Qed.
Lemma P_UpdatePositionMap_right p L M g j a b m : p_n p = n -> rep p T L M -> agree p T L g -> (forall x, x < n -> M x = true) -> pm_right p g ->
  node n (N.of_nat j) a -> node n (N.of_nat j) b -> a <> b ->
  P_UpdatePositionMapForSubtreeSwap p (enc R (N.of_nat j) a) (enc R (N.of_nat j) b) = Ok (p_set_posmap p m) ->
  forall h x, m !! h = Some x <-> x < n /\ g 0%nat (swt j a b 0 x) = h.
Proof.
  intros Hpn HR Hg HM Hp Ha Hb Hab. unfold P_UpdatePositionMapForSubtreeSwap. rewrite Hpn.
  pose proof (node_slot _ _ _ Ha) as Hsa. pose proof (node_slot _ _ _ Hb) as Hsb. pose proof (R62 n Hn) as HR62.
  rewrite DetectRow_ok by done. cbn [bind].
  pose proof (LeftDescendant_ok n Hn 0 a (N.of_nat j)) as El. rewrite N.add_0_l, enc_0 in El. rewrite El by done. cbn [bind]. clear El.
  pose proof (LeftDescendant_ok n Hn 0 b (N.of_nat j)) as El. rewrite N.add_0_l, enc_0 in El. rewrite El by done. cbn [bind]. clear El.
  pose proof (node_row _ _ _ Ha) as Hrow.
  rewrite shl64_ok by lia. rewrite N.mul_1_l, w64_small by (apply pow_R_64; lia). cbn [bind].
  unfold P_UpdatePositionMapForRange. unfold node in Ha, Hb.
  assert (H64 : n < two64) by (assert (2 ^ 62 < two64) by done; lia).
  assert (Hdj : a * 2 ^ N.of_nat j + 2 ^ N.of_nat j <= b * 2 ^ N.of_nat j \/ b * 2 ^ N.of_nat j + 2 ^ N.of_nat j <= a * 2 ^ N.of_nat j).
  { clear - Hab. remember (2 ^ N.of_nat j) as P. assert (a < b \/ b < a) as [?|?] by lia; [left|right]; nia. }
  destruct (N.eqb_spec (N.of_nat (base.size (p_posmap p))) 0) as [E|E].
  { intros Em. apply Ok_inv in Em. apply (f_equal p_posmap) in Em. cbn [p_set_posmap p_posmap] in Em. subst m.
    assert (p_posmap p = ∅) as He by (apply map_size_empty_iff; lia).
    intros h x. rewrite He, lookup_empty. split; [done|]. intros [Hlt _].
    pose proof (proj2 (Hp (g 0%nat x) x) (conj Hlt eq_refl)) as Hx. by rewrite He, lookup_empty in Hx. }
  rewrite !(P_ReadLeafRange_full p L M g) by (done || lia). cbn [bind]. intros Em. apply Ok_inv in Em. apply (f_equal p_posmap) in Em. cbn [p_set_posmap p_posmap] in Em. subst m.
  intros h x. rewrite (shift_swap (p_posmap p) (g 0%nat) n) by (done || lia). rewrite swt_swi by (done || lia). by rewrite Nat.sub_0_r.
Qed.

(** Whether a right entry of the position map follows its leaf: exactly if the
    leaf is stored. *)
Definition inj0 (g : nat -> N -> hash) : Prop := forall x y, x < n -> y < n -> g 0%nat x = g 0%nat y -> x = y.
Definition entry (p : pollard) (g : nat -> N -> hash) (h : hash) (x : N) : Prop := p_posmap p !! h = Some x /\ x < n /\ g 0%nat x = h.
Lemma P_ReadLeafRange_part p L M g a k : p_n p = n -> rep p T L M -> agree p T L g -> a + k <= n ->
  P_ReadLeafRange p a k = Ok (g 0%nat <$> filter (λ x, is_Some (L 0%nat x)) (nseq a k)).
Proof.
  intros Hpn HR Hg Hk. unfold P_ReadLeafRange.
  assert (Hall : forall x, x ∈ nseq a k -> x < n) by (intros x Hx%nseq_elem; lia).
  induction (nseq a k) as [|x l IH]; [done|]. cbn [p_read_all].
  assert (Hx : x < n) by (apply Hall; left).
  pose proof (P_Read_ok p L M 0 x Hpn HR) as E. change (N.of_nat 0) with 0 in E. rewrite enc_0 in E.
  rewrite E by (unfold node; change (2 ^ 0) with 1; lia). cbn [bind].
  rewrite IH by (intros y Hy; apply Hall; by right). cbn [bind]. rewrite filter_cons.
  destruct (L 0%nat x) as [l'|] eqn:El; cbn [fmap option_fmap option_map].
  - rewrite decide_True by (by eexists). rewrite fmap_cons. rewrite (Hg 0%nat x l'); [done| |done].
    apply trees_under. unfold node. change (2 ^ N.of_nat 0) with 1. lia.
  - rewrite decide_False by (by intros [??]). done.
Qed.
Lemma P_UpdatePositionMap_entry p L M g j a b m h x : p_n p = n -> rep p T L M -> agree p T L g -> inj0 g -> entry p g h x ->
  node n (N.of_nat j) a -> node n (N.of_nat j) b -> a <> b ->
  P_UpdatePositionMapForSubtreeSwap p (enc R (N.of_nat j) a) (enc R (N.of_nat j) b) = Ok (p_set_posmap p m) ->
  m !! h = Some (if L 0%nat x then swt j a b 0 x else x).
Proof.
  intros Hpn HR Hg Hinj (Hq & Hlt & HG) Ha Hb Hab. unfold P_UpdatePositionMapForSubtreeSwap. rewrite Hpn.
  pose proof (node_slot _ _ _ Ha) as Hsa. pose proof (node_slot _ _ _ Hb) as Hsb. pose proof (R62 n Hn) as HR62.
  rewrite DetectRow_ok by done. cbn [bind].
  pose proof (LeftDescendant_ok n Hn 0 a (N.of_nat j)) as El. rewrite N.add_0_l, enc_0 in El. rewrite El by done. cbn [bind]. clear El.
  pose proof (LeftDescendant_ok n Hn 0 b (N.of_nat j)) as El. rewrite N.add_0_l, enc_0 in El. rewrite El by done. cbn [bind]. clear El.
  pose proof (node_row _ _ _ Ha) as Hrow.
  rewrite shl64_ok by lia. rewrite N.mul_1_l, w64_small by (apply pow_R_64; lia). cbn [bind].
  unfold P_UpdatePositionMapForRange. unfold node in Ha, Hb.
  assert (H64 : n < two64) by (assert (2 ^ 62 < two64) by done; lia).
  assert (Hdj : a * 2 ^ N.of_nat j + 2 ^ N.of_nat j <= b * 2 ^ N.of_nat j \/ b * 2 ^ N.of_nat j + 2 ^ N.of_nat j <= a * 2 ^ N.of_nat j).
  { clear - Hab. remember (2 ^ N.of_nat j) as P. assert (a < b \/ b < a) as [?|?] by lia; [left|right]; nia. }
  rewrite swt_swi by (done || lia). rewrite Nat.sub_0_r.
  assert (Hak : a * 2 ^ N.of_nat j + 2 ^ N.of_nat j <= n) by lia. assert (Hbk : b * 2 ^ N.of_nat j + 2 ^ N.of_nat j <= n) by lia.
  destruct (N.eqb_spec (N.of_nat (base.size (p_posmap p))) 0) as [E|E].
  { assert (p_posmap p = ∅) as He by (apply map_size_empty_iff; lia). by rewrite He, lookup_empty in Hq. }
  rewrite !(P_ReadLeafRange_part p L M g) by done. cbn [bind]. intros Em. apply Ok_inv in Em. apply (f_equal p_posmap) in Em. cbn [p_set_posmap p_posmap] in Em. subst m.
  clear Ha Hb Hsa Hsb Hab E. generalize dependent (a * 2 ^ N.of_nat j). generalize dependent (b * 2 ^ N.of_nat j). generalize dependent (2 ^ N.of_nat j).
  clear a b Hrow. intros k b Hb a Hdj Ha.
  assert (Hnd : forall c, c + k <= n -> NoDup (g 0%nat <$> filter (λ y, is_Some (L 0%nat y)) (nseq c k))).
  { intros c Hc. apply NoDup_fmap_2_strong; [|apply NoDup_filter, nseq_NoDup]. intros y z [_ Hy%nseq_elem]%elem_of_list_filter [_ Hz%nseq_elem]%elem_of_list_filter. apply Hinj; lia. }
  assert (Hin : forall c, c + k <= n -> h ∈ (g 0%nat <$> filter (λ y, is_Some (L 0%nat y)) (nseq c k)) <-> is_Some (L 0%nat x) /\ c <= x < c + k).
  { intros c Hc. rewrite elem_of_list_fmap. split.
    - intros (y & Hy & [Hs Hy2%nseq_elem]%elem_of_list_filter). rewrite <- HG in Hy. apply Hinj in Hy; [subst y; split; [done|lia]|lia|lia].
    - intros [Hs Hc2]. exists x. split; [done|]. apply elem_of_list_filter. split; [done|]. by apply nseq_elem. }
  assert (Hsub : forall x y z, x <= z -> z < two64 -> y + (z - x) < two64 -> x < two64 -> y < two64 -> add64 z (sub64 y x) = y + (z - x)).
  { clear. intros x y z H1 H2 H3 H4 H5. unfold add64, sub64. rewrite (w64_small x) by done. unfold w64.
    rewrite N.add_mod_idemp_r by done. replace (z + (y + two64 - x)) with (y + (z - x) + 1 * two64) by lia.
    rewrite N.mod_add by done. by apply N.mod_small. }
  rewrite !shift_positions_lookup by auto. rewrite Hq.
  destruct (decide (h ∈ g 0%nat <$> filter _ (nseq b k))) as [Hx|Hx]; rewrite Hin in Hx by done;
    destruct (decide (h ∈ g 0%nat <$> filter _ (nseq a k))) as [Hy|Hy]; rewrite Hin in Hy by done; cbn [fmap option_fmap option_map].
  - lia.
  - destruct Hx as [[l ->] Hx]. f_equal. rewrite Hsub by lia. unfold swi.
    destruct (N.leb_spec a x), (N.ltb_spec x (a + k)), (N.leb_spec b x), (N.ltb_spec x (b + k)); cbn [andb]; lia.
  - destruct Hy as [[l ->] Hy]. f_equal. rewrite Hsub by lia. unfold swi.
    destruct (N.leb_spec a x), (N.ltb_spec x (a + k)), (N.leb_spec b x), (N.ltb_spec x (b + k)); cbn [andb]; lia.
  - destruct (L 0%nat x); [|done]. f_equal. assert (~ a <= x < a + k) by (intros ?; apply Hy; split; [by eexists|done]).
    assert (~ b <= x < b + k) by (intros ?; apply Hx; split; [by eexists|done]). unfold swi.
    destruct (N.leb_spec a x), (N.ltb_spec x (a + k)), (N.leb_spec b x), (N.ltb_spec x (b + k)); cbn [andb]; lia.
Qed.
Lemma P_UpdatePositionMap_unstored p L M g j a b m h x : p_n p = n -> rep p T L M -> agree p T L g -> inj0 g -> x < n -> g 0%nat x = h -> L 0%nat x = None ->
  node n (N.of_nat j) a -> node n (N.of_nat j) b ->
  P_UpdatePositionMapForSubtreeSwap p (enc R (N.of_nat j) a) (enc R (N.of_nat j) b) = Ok (p_set_posmap p m) ->
  m !! h = p_posmap p !! h.
Proof.
  intros Hpn HR Hg Hinj Hlt HG HLx Ha Hb. unfold P_UpdatePositionMapForSubtreeSwap. rewrite Hpn.
  pose proof (node_slot _ _ _ Ha) as Hsa. pose proof (node_slot _ _ _ Hb) as Hsb. pose proof (R62 n Hn) as HR62.
  rewrite DetectRow_ok by done. cbn [bind].
  pose proof (LeftDescendant_ok n Hn 0 a (N.of_nat j)) as El. rewrite N.add_0_l, enc_0 in El. rewrite El by done. cbn [bind]. clear El.
  pose proof (LeftDescendant_ok n Hn 0 b (N.of_nat j)) as El. rewrite N.add_0_l, enc_0 in El. rewrite El by done. cbn [bind]. clear El.
  pose proof (node_row _ _ _ Ha) as Hrow.
  rewrite shl64_ok by lia. rewrite N.mul_1_l, w64_small by (apply pow_R_64; lia). cbn [bind].
  unfold P_UpdatePositionMapForRange. unfold node in Ha, Hb.
  destruct (N.eqb_spec (N.of_nat (base.size (p_posmap p))) 0) as [E|E].
  { intros Em. apply Ok_inv in Em. apply (f_equal p_posmap) in Em. cbn [p_set_posmap p_posmap] in Em. by subst m. }
  rewrite !(P_ReadLeafRange_part p L M g) by (done || lia). cbn [bind]. intros Em. apply Ok_inv in Em. apply (f_equal p_posmap) in Em. cbn [p_set_posmap p_posmap] in Em. subst m.
  assert (Hno : forall c k, c + k <= n -> h ∉ (g 0%nat <$> filter (λ y, is_Some (L 0%nat y)) (nseq c k))).
  { intros c k Hc (y & Hy & [Hs Hy2%nseq_elem]%elem_of_list_filter)%elem_of_list_fmap. rewrite <- HG in Hy. apply Hinj in Hy; [subst y; rewrite HLx in Hs; by destruct Hs|lia|lia]. }
  assert (Hnd : forall c k, c + k <= n -> NoDup (g 0%nat <$> filter (λ y, is_Some (L 0%nat y)) (nseq c k))).
  { intros c k Hc. apply NoDup_fmap_2_strong; [|apply NoDup_filter, nseq_NoDup]. intros y z [_ Hy%nseq_elem]%elem_of_list_filter [_ Hz%nseq_elem]%elem_of_list_filter. apply Hinj; lia. }
  rewrite !shift_positions_lookup by (apply Hnd; lia). rewrite !decide_False by (apply Hno; lia). done.
Qed.

(** ** Swapping *)
Lemma swt_node j a b r x : node n (N.of_nat j) a -> node n (N.of_nat j) b -> node n (N.of_nat r) x -> node n (N.of_nat r) (swt j a b r x).
Proof.
  intros Ha Hb Hx. destruct (decide (r <= j)%nat) as [Hr|Hr]; [|by rewrite swt_above by lia]. rewrite swt_lift by done. unfold lift, sw.
  pose proof (pow_pos (N.of_nat (j - r))) as HP. pose proof (N.mod_lt x (2 ^ N.of_nat (j - r)) ltac:(lia)) as Hm.
  assert (Hy : forall y, node n (N.of_nat j) y -> node n (N.of_nat r) (y * 2 ^ N.of_nat (j - r) + x mod 2 ^ N.of_nat (j - r))).
  { intros y Hy. apply node_down; [|done]. by replace (N.of_nat r + N.of_nat (j - r)) with (N.of_nat j) by lia. }
  destruct (_ =? a); [by apply Hy|]. destruct (_ =? b); [by apply Hy|].
  rewrite N.mul_comm, <- N.div_mod by lia. done.
Qed.
Lemma swt_inT j a b r x : node n (N.of_nat j) a -> node n (N.of_nat j) b -> inT T r x -> inT T r (swt j a b r x).
Proof. rewrite !trees_under. apply swt_node. Qed.
Lemma swt_hp j a b r x : node n (N.of_nat j) a -> node n (N.of_nat j) b -> (r < j)%nat -> inT T r x ->
  hp T r (swt j a b r x) = swt j a b r (hp T r x).
Proof.
  intros Ha Hb Hr Hx. destruct (inT_cases _ _ _ Hx) as [Hroot|Hk].
  - rewrite (hp_root T r x) by done.
    assert (Hout : forall y, node n (N.of_nat j) y -> x / 2 ^ N.of_nat (j - r) <> y).
    { intros y Hy E. assert (Hy' : inT T j y) by (by apply trees_under). destruct Hy' as (t & Ht & [Hu1 Hu2]).
      assert (Hut : under t r x).
      { split; [lia|]. rewrite <- Hu2, <- E. rewrite N.div_div by (pose proof (pow_pos (N.of_nat (j - r))); pose proof (pow_pos (t.1 - N.of_nat j)); lia).
        rewrite <- N.pow_add_r. do 2 f_equal. lia. }
      pose proof (Hd _ _ r x Ht Hroot Hut (under_root r x)) as ->. cbn [fst] in Hu1. lia. }
    assert (E : swt j a b r x = x).
    { rewrite swt_lift by lia. unfold lift. rewrite sw_ne by (by apply Hout). rewrite N.mul_comm. symmetry. apply N.div_mod.
      pose proof (pow_pos (N.of_nat (j - r))). lia. }
    rewrite E. by apply hp_root.
  - rewrite (hp_kid T r x) by done. rewrite swt_sib by done. apply hp_kid; [done|].
    destruct (swt_half j a b r x Hr) as [-> _]. by apply swt_inT.
Qed.

Definition Lsw (j : nat) (a b : N) (L : lmap) : lmap := fun r x => if (r <? j)%nat then L r (swt j a b r x) else L r x.
Definition Msw (j : nat) (a b : N) (M : N -> bool) : N -> bool := fun x => M (swt j a b 0 x).
Lemma Lsw_lt j a b L r x : (r < j)%nat -> Lsw j a b L r x = L r (swt j a b r x).
Proof. intros Hr. unfold Lsw. destruct (Nat.ltb_spec r j); [done|lia]. Qed.
Lemma Lsw_ge j a b L r x : (j <= r)%nat -> Lsw j a b L r x = L r x.
Proof. intros Hr. unfold Lsw. destruct (Nat.ltb_spec r j); [lia|done]. Qed.

Lemma swap_rep p L M g j a b la ha lb hb h1 h2 : rep p T L M -> agree p T L g ->
  node n (N.of_nat j) a -> node n (N.of_nat j) b -> a <> b ->
  L j a = Some la -> L j (hp T j a) = Some ha -> L j b = Some lb -> L j (hp T j b) = Some hb ->
  (forall o c, nc h1 o c = nc (p_heap p) o c) ->
  (forall l, hv h1 l = if decide (l = lb) then hv (p_heap p) la else if decide (l = la) then hv (p_heap p) lb else hv (p_heap p) l) ->
  (forall l, is_Some (h1 !! l) <-> is_Some (p_heap p !! l)) ->
  (forall o c, nc h2 o c = if decide (o = Some hb) then nc h1 (Some ha) c else if decide (o = Some ha) then nc h1 (Some hb) c else nc h1 o c) ->
  (forall l, hv h2 l = hv h1 l) -> (forall l, is_Some (h2 !! l) <-> is_Some (h1 !! l)) ->
  rep (p_set_heap p h2) T (Lsw j a b L) (Msw j a b M) /\ agree (p_set_heap p h2) T (Lsw j a b L) (fun r i => g r (swt j a b r i)).
Proof.
  intros HR Hg Ha Hb Hab Ela Eha Elb Ehb Hn1 Hv1 Hi1 Hn2 Hv2 Hi2.
  assert (HaT : inT T j a) by (by apply trees_under). assert (HbT : inT T j b) by (by apply trees_under).
  assert (HhaT := inT_hp _ _ _ Hd HaT). assert (HhbT := inT_hp _ _ _ Hd HbT).
  assert (Hdom : forall r i l, inT T r i -> Lsw j a b L r i = Some l -> exists i', inT T r i' /\ L r i' = Some l /\ i' = if (r <? j)%nat then swt j a b r i else i).
  { intros r i l Hi Hl. unfold Lsw in Hl. destruct (Nat.ltb_spec r j); [|by exists i]. exists (swt j a b r i).
    split; [by apply swt_inT|done]. }
  assert (Hnieces : forall r x c, inT T r x -> nc h2 (L r (hp T r x)) c =
     if decide (r = j) then nc (p_heap p) (L j (hp T j (sw a b x))) c else nc (p_heap p) (L r (hp T r x)) c).
  { intros r x c Hx. rewrite Hn2, !Hn1.
    assert (Hx' := inT_hp _ _ _ Hd Hx).
    destruct (decide (r = j)) as [->|Hrj].
    - destruct (decide (x = a)) as [->|Hxa]; [|destruct (decide (x = b)) as [->|Hxb]].
      + rewrite sw_l, Eha, Ehb. destruct (decide (Some ha = Some hb)) as [[= ->]|_]; [done|]. by rewrite decide_True.
      + rewrite sw_r, Eha, Ehb. by rewrite decide_True.
      + rewrite sw_ne by done. destruct (decide (L j (hp T j x) = Some hb)) as [E|_].
        { destruct (rp_inj _ _ _ _ HR _ _ _ _ _ Hx' HhbT E Ehb) as [_ Ex]. by apply hp_inj in Ex. }
        destruct (decide (L j (hp T j x) = Some ha)) as [E|_]; [|done].
        destruct (rp_inj _ _ _ _ HR _ _ _ _ _ Hx' HhaT E Eha) as [_ Ex]. by apply hp_inj in Ex.
    - destruct (decide (L r (hp T r x) = Some hb)) as [E|_].
      { destruct (rp_inj _ _ _ _ HR _ _ _ _ _ Hx' HhbT E Ehb) as [? _]. done. }
      destruct (decide (L r (hp T r x) = Some ha)) as [E|_]; [|done].
      destruct (rp_inj _ _ _ _ HR _ _ _ _ _ Hx' HhaT E Eha) as [? _]. done. }
  assert (Hsw : forall x, inT T j x -> inT T j (sw a b x)) by (intros x Hx; rewrite <- (swt_self j a b x); by apply swt_inT).
  split; [split|].
  - done.
  - cbn [p_roots p_set_heap]. rewrite (rp_roots _ _ _ _ HR). apply list_fmap_ext. intros k t Ht%elem_of_list_lookup_2.
    unfold Lsw. destruct (Nat.ltb_spec (N.to_nat t.1) j) as [Hlt|]; [|done]. f_equal.
    pose proof (swt_hp j a b (N.to_nat t.1) t.2 Ha Hb Hlt) as E. 
    assert (Ht' : (N.of_nat (N.to_nat t.1), t.2) ∈ T) by (rewrite N2Nat.id; by destruct t).
    specialize (E (inT_root _ _ _ Ht')). rewrite (hp_root T _ t.2) in E by done.
    destruct (inT_cases _ _ _ (swt_inT j a b _ _ Ha Hb (inT_root _ _ _ Ht'))) as [Hr|Hk].
    + pose proof (trees_elem n (N.of_nat (N.to_nat t.1)) t.2) as H1. pose proof (trees_elem n (N.of_nat (N.to_nat t.1)) (swt j a b (N.to_nat t.1) t.2)) as H2.
      apply H1 in Ht'. apply H2 in Hr. apply is_root_iff in Ht' as [_ E1]. apply is_root_iff in Hr as [_ E2]. congruence.
    + rewrite hp_kid in E by done. by apply sib_ne in E.
  - intros r i Hr. unfold Lsw. destruct (Nat.ltb_spec r j) as [Hlt|]; [|by apply (rp_root _ _ _ _ HR)].
    assert (E : swt j a b r i = i); [|rewrite E; by apply (rp_root _ _ _ _ HR)].
    pose proof (swt_hp j a b r i Ha Hb Hlt (inT_root _ _ _ Hr)) as E. rewrite (hp_root T _ i) in E by done.
    destruct (inT_cases _ _ _ (swt_inT j a b _ _ Ha Hb (inT_root _ _ _ Hr))) as [Hr'|Hk].
    + apply trees_elem, is_root_iff in Hr as [_ E1]. apply trees_elem, is_root_iff in Hr' as [_ E2]. congruence.
    + rewrite hp_kid in E by done. by apply sib_ne in E.
  - intros r i l Hi Hl. destruct (Hdom r i l Hi Hl) as (i' & Hi' & Hl' & _). cbn [p_heap p_next p_set_heap].
    destruct (rp_dom _ _ _ _ HR _ _ _ Hi' Hl') as (? & ? & ?). split; [done|]. split; [done|]. by apply Hi2, Hi1.
  - intros r i r' i' l Hi Hi' Hl Hl'. destruct (Hdom r i l Hi Hl) as (x & Hx & Hlx & Ex). destruct (Hdom r' i' l Hi' Hl') as (x' & Hx' & Hlx' & Ex').
    destruct (rp_inj _ _ _ _ HR _ _ _ _ _ Hx Hx' Hlx Hlx') as [-> ->]. split; [done|]. rewrite Ex in Ex'.
    destruct (r' <? j)%nat; [|done]. rewrite <- (swt_invol j a b r' i), Ex'. apply swt_invol.
  - intros r x Hx. cbn [p_heap p_set_heap]. destruct (Nat.lt_trichotomy (S r) j) as [Hlt|[E|Hgt]].
    + rewrite !Lsw_lt by lia. rewrite <- swt_hp by (done || lia).
      destruct (swt_half j a b r x ltac:(lia)) as [E1 E2]. rewrite Hnieces by (by apply swt_inT).
      rewrite decide_False by lia. rewrite <- E1, <- E2. apply (rp_kid _ _ _ _ HR). rewrite E1. by apply swt_inT.
    + subst j. rewrite Lsw_ge, Lsw_lt by lia. rewrite Hnieces by done. rewrite decide_True by done.
      destruct (swt_half (S r) a b r x ltac:(lia)) as [E1 E2]. rewrite swt_self in E1. rewrite <- E1, <- E2.
      apply (rp_kid _ _ _ _ HR). rewrite E1. by apply Hsw.
    + rewrite !Lsw_ge by lia. rewrite Hnieces by done. destruct (decide (S r = j)) as [|]; [lia|]. by apply (rp_kid _ _ _ _ HR).
  - intros i Hi. cbn [p_heap p_set_heap]. unfold Msw. destruct j as [|j'] eqn:Ej.
    + rewrite Lsw_ge by lia. rewrite Hnieces by done. rewrite decide_True by done. rewrite swt_self. apply (rp_leaf _ _ _ _ HR). by apply Hsw.
    + rewrite Lsw_lt by lia. rewrite <- swt_hp by (done || lia). rewrite Hnieces by (by apply swt_inT). rewrite decide_False by done.
      apply (rp_leaf _ _ _ _ HR). by apply swt_inT.
  - intros i Hi. cbn [p_heap p_set_heap]. unfold Msw. destruct j as [|j'] eqn:Ej.
    + rewrite Lsw_ge by lia. rewrite Hnieces by done. rewrite decide_True by done. apply (rp_leaf' _ _ _ _ HR). by apply Hsw.
    + rewrite Lsw_lt by lia. rewrite <- swt_hp by (done || lia). rewrite Hnieces by (by apply swt_inT). rewrite decide_False by done.
      apply (rp_leaf' _ _ _ _ HR). by apply swt_inT.
  - apply (rp_next _ _ _ _ HR).
  - intros r i l Hi Hl. cbn [p_heap p_set_heap]. rewrite Hv2, Hv1. destruct (Nat.lt_trichotomy r j) as [Hlt|[->|Hgt]].
    + rewrite Lsw_lt in Hl by done. assert (Hi' : inT T r (swt j a b r i)) by (by apply swt_inT).
      destruct (decide (l = lb)) as [->|_]; [destruct (rp_inj _ _ _ _ HR _ _ _ _ _ Hi' HbT Hl Elb); lia|].
      destruct (decide (l = la)) as [->|_]; [destruct (rp_inj _ _ _ _ HR _ _ _ _ _ Hi' HaT Hl Ela); lia|]. by apply Hg.
    + rewrite Lsw_ge in Hl by lia. rewrite swt_self. destruct (decide (l = lb)) as [->|Hlb].
      { destruct (rp_inj _ _ _ _ HR _ _ _ _ _ Hi HbT Hl Elb) as [_ ->]. rewrite sw_r. by apply Hg. }
      destruct (decide (l = la)) as [->|Hla].
      { destruct (rp_inj _ _ _ _ HR _ _ _ _ _ Hi HaT Hl Ela) as [_ ->]. rewrite sw_l. by apply Hg. }
      rewrite sw_ne by congruence. by apply Hg.
    + rewrite Lsw_ge in Hl by lia. rewrite swt_above by lia.
      destruct (decide (l = lb)) as [->|_]; [destruct (rp_inj _ _ _ _ HR _ _ _ _ _ Hi HbT Hl Elb); lia|].
      destruct (decide (l = la)) as [->|_]; [destruct (rp_inj _ _ _ _ HR _ _ _ _ _ Hi HaT Hl Ela); lia|]. by apply Hg.
Qed.

Lemma SwapSubTrees_ok p L M g j a b : p_n p = n -> rep p T L M -> agree p T L g ->
  node n (N.of_nat j) a -> node n (N.of_nat j) b -> a <> b ->
  is_Some (L j a) -> is_Some (L j (hp T j a)) -> is_Some (L j b) -> is_Some (L j (hp T j b)) ->
  exists h k, P_SwapSubTrees p (enc R (N.of_nat j) a) (enc R (N.of_nat j) b) = Ok (p_set_heap p h, ancs T L R k j b) /\
    (N.of_nat (k + j), b / 2 ^ N.of_nat k) ∈ T /\
    rep (p_set_heap p h) T (Lsw j a b L) (Msw j a b M) /\ agree (p_set_heap p h) T (Lsw j a b L) (fun r i => g r (swt j a b r i)).
Proof.
  intros Hpn HR Hg Ha Hb Hab [la Ela] [ha Eha] [lb Elb] [hb Ehb].
  assert (HaT : inT T j a) by (by apply trees_under). assert (HbT : inT T j b) by (by apply trees_under).
  assert (Hpath : forall k i l, node n (N.of_nat j) i -> L j i = Some l -> (N.of_nat (k + j), i / 2 ^ N.of_nat k) ∈ T ->
     k = O \/ is_Some (L (S j) (hp T (S j) (i / 2)))).
  { intros k i l Hi Hl Hk. apply trees_under in Hi. destruct (inT_cases _ _ _ Hi) as [Hr|Hx].
    - left. assert (under (N.of_nat (k + j), i / 2 ^ N.of_nat k) j i).
      { split; cbn [fst snd]; [lia|]. do 2 f_equal. lia. }
      pose proof (Hd _ _ j i Hk Hr H (under_root j i)) as E. apply (f_equal fst) in E. cbn [fst] in E. lia.
    - right. by apply (rep_holder p T L M HR j i l). }
  destruct (ReadSiblings_ok p L M true j a Hpn HR Ha) as (ka & qa & E1 & Hka & Hqa).
  rewrite (Hqa eq_refl (Hpath _ _ _ Ha Ela Hka)) in E1.
  destruct (ReadSiblings_ok p L M true j b Hpn HR Hb) as (kb & qb & E2 & Hkb & Hqb).
  rewrite (Hqb eq_refl (Hpath _ _ _ Hb Elb Hkb)) in E2.
  rewrite Ela, Eha in E1. rewrite Elb, Ehb in E2.
  assert (Hlab : lb <> la). { intros ->. destruct (rp_inj _ _ _ _ HR _ _ _ _ _ HaT HbT Ela Elb). done. }
  assert (Hhab : hb <> ha).
  { intros ->. destruct (rp_inj _ _ _ _ HR _ _ _ _ _ (inT_hp _ _ _ Hd HaT) (inT_hp _ _ _ Hd HbT) Eha Ehb) as [_ E]. by apply hp_inj in E. }
  destruct (swap_hash_ok (p_heap p) lb la) as (h1 & Eh1 & Hn1 & Hv1 & Hi1); [by apply (rep_get p T L M HR j b)|by apply (rep_get p T L M HR j a)|done|].
  destruct (swap_nieces_ok h1 hb ha) as (h2 & Eh2 & Hn2 & Hv2 & Hi2).
  { apply Hi1. apply (rep_get p T L M HR j (hp T j b)); [by apply inT_hp|done]. }
  { apply Hi1. apply (rep_get p T L M HR j (hp T j a)); [by apply inT_hp|done]. }
  { done. }
  destruct (swap_rep p L M g j a b la ha lb hb h1 h2 HR Hg Ha Hb Hab Ela Eha Elb Ehb Hn1 Hv1 Hi1 Hn2 Hv2 Hi2) as [HR' Hg'].
  exists h2, kb. split; [|done].
  unfold P_SwapSubTrees. rewrite E1. cbn [bind hook_in_sibling].
  pose proof (node_slot _ _ _ Ha) as [Hsl _]. rewrite Sibling_ok by done.
  destruct (N.eqb_spec (enc R (N.of_nat j) (sib a)) (enc R (N.of_nat j) b)) as [E%enc_inj1|E].
  - assert (Hpar : inT T (S j) (a / 2)).
    { destruct (inT_cases _ _ _ HaT) as [Hr|?]; [|done]. exfalso. apply trees_elem in Hr as [_ Hr]. apply Hr. 
      rewrite <- E in Hb. apply node_iff. apply node_iff in Hb, Ha. rewrite div_pow_S. revert Ha Hb. generalize (n / 2 ^ N.of_nat j). intros q H1 H2.
      unfold sib in H2. rewrite even_mod in H2. destruct (N.eqb_spec (a mod 2) 0); dlia. }
    assert (Eb : hp T j a = b) by (rewrite hp_kid by done; done).
    assert (Ea : hp T j b = a). { rewrite <- Eb. by apply hp_hp. }
    rewrite Eb in Eha. rewrite Ea in Ehb. assert (ha = lb) as -> by congruence. assert (hb = la) as -> by congruence.
    cbn [bind]. rewrite Eh1. cbn [bind]. rewrite Eh2. cbn [bind]. do 2 f_equal.
    assert (Eab : a / 2 = b / 2) by (rewrite <- E; by rewrite sib_half).
    assert (Ek : ka = kb).
    { assert (Hk0 : forall k i, inT T (S j) (i / 2) -> (N.of_nat (k + j), i / 2 ^ N.of_nat k) ∈ T -> k <> O).
      { intros k i Hi Hk ->. change (2 ^ N.of_nat 0) with 1 in Hk. rewrite N.div_1_r in Hk. by apply (kid_not_root T j i Hd Hi). }
      pose proof (Hk0 ka a Hpar Hka). pose proof (Hk0 kb b ltac:(by rewrite <- Eab) Hkb).
      destruct ka as [|ka]; [done|]. destruct kb as [|kb]; [done|].
      rewrite pow_nat_S, <- N.div_div in Hka, Hkb by (pose proof (pow_pos (N.of_nat ka)); pose proof (pow_pos (N.of_nat kb)); lia).
      rewrite <- Eab in Hkb.
      assert (Hu : forall k, under (N.of_nat (S k + j), a / 2 / 2 ^ N.of_nat k) (S j) (a / 2)).
      { intros k. split; cbn [fst snd]; [lia|]. do 2 f_equal. lia. }
      pose proof (Hd _ _ _ _ Hka Hkb (Hu ka) (Hu kb)) as Ex. apply (f_equal fst) in Ex. cbn [fst] in Ex. lia. }
    rewrite Ek. destruct kb as [|kb]; [done|]. by rewrite !ancs_cons, Eab.
  - rewrite E2. cbn [bind hook_in_sibling fst snd]. rewrite Eh1. cbn [bind]. rewrite Eh2. cbn [bind]. done.
Qed.
End Ops.
