(** * PollardInit: making the children of a node present (proofs) *)
From stdpp Require Import sorting.
From Verif Require Import Base StateModel CodecModel ForestModel PollardModel PosSpec PosFacts PathFacts MerkleSpec ForestFacts RowFacts
  TransformFacts RemoveFacts ForestInv PollardRep PollardOps PollardAdd.
From Coq Require Import ZifyBool ZifyNat ZifyN.
Ltac Zify.zify_post_hook ::= idtac.
Ltac dlia := zify; Z.div_mod_to_equations; lia.

(** ** Outcomes: [Z] says when undefined behaviour is possible *)
Definition wp {A} (Z : Prop) (m : res A) (Q : A -> Prop) : Prop :=
  match m with Ok a => Q a | UB => Z | _ => False end.
Lemma wp_bind {A B} Z (m : res A) (f : A -> res B) Q : wp Z m (fun a => wp Z (f a) Q) -> wp Z (bind m f) Q.
Proof. by destruct m. Qed.
Lemma wp_ok {A} Z (m : res A) a (Q : A -> Prop) : m = Ok a -> Q a -> wp Z m Q.
Proof. by intros ->. Qed.
Lemma wp_mono {A} Z (m : res A) (Q Q' : A -> Prop) : wp Z m Q -> (forall a, Q a -> Q' a) -> wp Z m Q'.
Proof. destruct m; cbn [wp]; auto. Qed.

Lemma vec_get_eq {A} (l : list A) i x : l !! N.to_nat i = Some x -> vec_get l i = Ok x.
Proof. intros E. unfold vec_get. by rewrite E. Qed.
Lemma vec_set_eq {A} (l : list A) i (x y : A) : l !! N.to_nat i = Some x -> vec_set l i y = Ok (<[N.to_nat i := y]> l).
Proof. intros E%lookup_lt_Some. apply vec_set_ok. unfold size. lia. Qed.

(** ** One fresh child *)
Lemma rep_new_kid p T L M r y s nd : rep p T L M -> inT T (S r) (y / 2) -> L (S r) (hp T (S r) (y / 2)) = Some s -> p_heap p !! s = Some nd ->
  L r y = None ->
  let h := <[s := set_niece nd (N.odd y) (Some (p_next p))]> (<[p_next p := INode zero_hash None None]> (p_heap p)) in
  rep (Pollard (p_n p) h (p_next p + 1) (p_roots p) (p_posmap p)) T (Lset L r y (p_next p)) M /\
  (forall l, l < p_next p -> hv h l = hv (p_heap p) l).
Proof.
  intros HR Hy Hs End Hnone h. pose proof (rp_disj _ _ _ _ HR) as Hd. remember (p_next p) as l0 eqn:El0.
  pose proof (inT_hp _ _ _ Hd Hy) as Hpy. destruct (rp_dom _ _ _ _ HR _ _ _ Hpy Hs) as (Hs0 & Hs1 & _). rewrite <- El0 in Hs1.
  pose proof (rp_next _ _ _ _ HR) as Hnx. rewrite <- El0 in Hnx.
  assert (Hfresh : forall r i l, inT T r i -> L r i = Some l -> l <> l0).
  { intros r' i l H1 H2. destruct (rp_dom _ _ _ _ HR _ _ _ H1 H2) as (_ & Hl & _). lia. }
  assert (Hh : forall l, l <> s -> l <> l0 -> h !! l = p_heap p !! l).
  { intros l H1 H2. unfold h. rewrite !heap_ne by congruence. done. }
  assert (Hh0 : h !! l0 = Some (INode zero_hash None None)).
  { unfold h. rewrite heap_ne by lia. apply heap_eq. }
  assert (Hhs : h !! s = Some (set_niece nd (N.odd y) (Some l0))) by apply heap_eq.
  assert (Hnc : forall r' i b, inT T r' i -> (r' = S r /\ i = hp T (S r) (y / 2) /\ b = N.odd y -> False) ->
     nc h (Lset L r y l0 r' i) b = nc (p_heap p) (L r' i) b).
  { intros r' i b Hi Hne. destruct (decide (r' = r /\ i = y)) as [[-> ->]|Hn2].
    - rewrite Lset_eq, Hnone. cbn [nc]. rewrite Hh0. by destruct b.
    - rewrite Lset_ne by done. destruct (L r' i) as [l|] eqn:El; [|done]. pose proof (Hfresh _ _ _ Hi El). cbn [nc].
      destruct (decide (l = s)) as [->|Hls].
      + rewrite Hhs, End. destruct (rp_inj _ _ _ _ HR _ _ _ _ _ Hi Hpy El Hs) as [-> ->].
        assert (b <> N.odd y) by (intros ->; by apply Hne). by destruct b, (N.odd y).
      + by rewrite Hh. }
  assert (Hyr : (N.of_nat r, y) ∉ T) by (by apply kid_not_root).
  split; [split; cbn [p_heap p_next p_roots]|].
  - done.
  - rewrite (rp_roots _ _ _ _ HR). apply list_fmap_ext. intros k [a b] Hk%elem_of_list_lookup_2. cbn [fst snd]. rewrite Lset_ne; [done|].
    intros [E1 E2]. apply Hyr. rewrite <- E1, N2Nat.id, <- E2. done.
  - intros r' i Hr. rewrite Lset_ne; [by apply (rp_root _ _ _ _ HR)|]. intros [-> ->]. done.
  - intros r' i l Hi Hl. destruct (decide (r' = r /\ i = y)) as [[-> ->]|Hn2].
    + rewrite Lset_eq in Hl. apply (inj Some) in Hl as <-. split; [lia|]. split; [lia|]. by rewrite Hh0.
    + rewrite Lset_ne in Hl by done. destruct (rp_dom _ _ _ _ HR _ _ _ Hi Hl) as (H1 & H2 & H3). split; [done|]. split; [lia|].
      destruct (decide (l = s)) as [->|]; [by rewrite Hhs|]. rewrite Hh by (try done; lia). done.
  - intros r1 i1 r2 i2 l H1 H2. destruct (decide (r1 = r /\ i1 = y)) as [[-> ->]|Hn1], (decide (r2 = r /\ i2 = y)) as [[-> ->]|Hn2];
      rewrite ?Lset_eq, ?Lset_ne by done.
    + done.
    + intros [= <-] E. by apply Hfresh in E.
    + intros E [= <-]. by apply Hfresh in E.
    + by apply (rp_inj _ _ _ _ HR).
  - intros r' x Hx. destruct (decide (r' = r /\ x = y)) as [[-> ->]|Hn2].
    + rewrite Lset_eq, Lset_ne by lia. rewrite Hs. cbn [nc]. rewrite Hhs. by destruct (N.odd y).
    + rewrite (Lset_ne _ _ _ _ r' x) by done. rewrite <- (rp_kid _ _ _ _ HR r' x Hx). apply Hnc; [by apply inT_hp|].
      intros ([= ->] & E1 & E2). apply hp_inj in E1; [|done..]. apply Hn2. split; [done|]. by apply half_odd.
  - intros i Hi. rewrite <- (rp_leaf _ _ _ _ HR i Hi). apply Hnc; [by apply inT_hp|]. intros (? & _). done.
  - intros i Hi. rewrite <- (rp_leaf' _ _ _ _ HR i Hi). apply Hnc; [by apply inT_hp|]. intros (? & _). done.
  - lia.
  - intros l Hl. unfold hv. destruct (decide (l = s)) as [->|]; [rewrite Hhs, End; by destruct (N.odd y)|]. by rewrite Hh by lia.
Qed.

Section Init.
Context (n : N) (Hn : n <= 2 ^ 62).
Notation R := (NumRows n).
Notation T := (trees n).
Definition pres1 (o : option loc) : bool := match o with Some _ => true | None => false end.
Lemma InitChildren_ok p t x w L M r d s : p_n p = n -> rep p T L M -> node n (N.of_nat (S r)) d ->
  t !! N.to_nat x = Some w -> w_sib w = Some s -> w_pos w = enc R (N.of_nat (S r)) d -> L (S r) (hp T (S r) d) = Some s ->
  exists p' L', P_InitChildren p t x = Ok (p', t ++
      [WNode (L' r (2 * d)) (L' r (2 * d + 1)) (Some x) (enc R (N.of_nat r) (2 * d)) (VFlag false false (pres1 (L r (2 * d))) (pres1 (L r (2 * d + 1))));
       WNode (L' r (2 * d + 1)) (L' r (2 * d)) (Some x) (enc R (N.of_nat r) (2 * d + 1)) (VFlag false false (pres1 (L r (2 * d + 1))) (pres1 (L r (2 * d))))],
      size t, size t + 1, negb (pres1 (L r (2 * d))), negb (pres1 (L r (2 * d + 1)))) /\
    p_n p' = n /\ p_roots p' = p_roots p /\ p_posmap p' = p_posmap p /\ rep p' T L' M /\
    (forall r' i l, L r' i = Some l -> L' r' i = Some l) /\
    (forall r' i, (r' = r /\ (i = 2 * d \/ i = 2 * d + 1) -> False) -> L' r' i = L r' i) /\
    is_Some (L' r (2 * d)) /\ is_Some (L' r (2 * d + 1)) /\
    (forall l, l < p_next p -> hv (p_heap p') l = hv (p_heap p) l).
Proof.
  intros Hpn HR Hd0 Ew Esib Epos Hs. pose proof (rp_disj _ _ _ _ HR) as Hd.
  assert (Hdt : inT T (S r) d) by (by apply trees_under).
  pose proof (inT_hp _ _ _ Hd Hdt) as Hpd.
  destruct (half_2 d) as [Hh1 Hh2]. destruct (odd_2 d) as [Ho1 Ho2].
  unfold P_InitChildren. rewrite (vec_get_eq _ _ _ Ew). cbn [bind]. rewrite Esib.
  destruct (rep_get _ _ _ _ HR _ _ _ Hpd Hs) as [nd0 E0]. rewrite (deref_ok _ _ _ E0). cbn [bind snd fst].
  assert (El : i_l nd0 = L r (2 * d)).
  { rewrite <- (rp_kid _ _ _ _ HR r (2 * d)) by (by rewrite Hh1). rewrite Hh1, Hs, Ho1, (nc_some _ _ _ _ E0). done. }
  remember (if is_null (i_l nd0)
            then let '(q, l) := alloc p (INode zero_hash None None) in p_set_heap q (<[s:=set_niece nd0 false (Some l)]> (p_heap q))
            else p) as p1 eqn:Ep1.
  assert (H1 : exists L1, rep p1 T L1 M /\ p_n p1 = n /\ p_roots p1 = p_roots p /\ p_posmap p1 = p_posmap p /\
    (forall r' i, (r' = r /\ i = 2 * d -> False) -> L1 r' i = L r' i) /\ is_Some (L1 r (2 * d)) /\ (is_Some (L r (2 * d)) -> L1 r (2 * d) = L r (2 * d)) /\
    (forall l, l < p_next p -> hv (p_heap p1) l = hv (p_heap p) l) /\ p_next p <= p_next p1).
  { subst p1. rewrite El. destruct (L r (2 * d)) as [l|] eqn:E; cbn [is_null].
    - exists L. split_and!; try done. all: rewrite ?E; done.
    - destruct (rep_new_kid p T L M r (2 * d) s nd0) as [H1 H2]; [done|by rewrite Hh1|by rewrite Hh1|done|done|].
      rewrite Ho1 in H1, H2. exists (Lset L r (2 * d) (p_next p)). split; [exact H1|]. split_and!; try done.
      + intros r' i Hne. by apply Lset_ne.
      + by rewrite Lset_eq.
      + by intros [??].
      + cbn [alloc p_set_heap p_next]. lia. }
  clear Ep1. destruct H1 as (L1 & HR1 & Hn1 & Hr1 & Hm1 & HL1 & HLs1 & HLo1 & Hv1 & Hx1).
  assert (Hs1 : L1 (S r) (hp T (S r) d) = Some s) by (by rewrite HL1 by lia).
  destruct (rep_get _ _ _ _ HR1 _ _ _ Hpd Hs1) as [nd1 E1]. rewrite (deref_ok _ _ _ E1). cbn [bind snd fst].
  assert (Er : i_r nd1 = L r (2 * d + 1)).
  { rewrite <- (HL1 r (2 * d + 1)) by lia. rewrite <- (rp_kid _ _ _ _ HR1 r (2 * d + 1)) by (by rewrite Hh2). rewrite Hh2, Hs1, Ho2, (nc_some _ _ _ _ E1). done. }
  remember (if is_null (i_r nd1)
            then let '(q, l) := alloc p1 (INode zero_hash None None) in p_set_heap q (<[s:=set_niece nd1 true (Some l)]> (p_heap q))
            else p1) as p2 eqn:Ep2.
  assert (H2 : exists L2, rep p2 T L2 M /\ p_n p2 = n /\ p_roots p2 = p_roots p /\ p_posmap p2 = p_posmap p /\
    (forall r' i, (r' = r /\ i = 2 * d + 1 -> False) -> L2 r' i = L1 r' i) /\ is_Some (L2 r (2 * d + 1)) /\ (is_Some (L r (2 * d + 1)) -> L2 r (2 * d + 1) = L r (2 * d + 1)) /\
    (forall l, l < p_next p1 -> hv (p_heap p2) l = hv (p_heap p1) l)).
  { subst p2. rewrite Er. rewrite <- (HL1 r (2 * d + 1)) by lia. destruct (L1 r (2 * d + 1)) as [l|] eqn:E; cbn [is_null].
    - exists L1. split_and!; try done. all: rewrite ?E; try done.
    - destruct (rep_new_kid p1 T L1 M r (2 * d + 1) s nd1) as [H1 H2]; [done|by rewrite Hh2|by rewrite Hh2|done|done|].
      rewrite Ho2 in H1, H2. exists (Lset L1 r (2 * d + 1) (p_next p1)). split; [exact H1|]. split_and!; try done.
      + intros r' i Hne. by apply Lset_ne.
      + by rewrite Lset_eq.
      + by intros [??]. }
  clear Ep2. destruct H2 as (L2 & HR2 & Hn2 & Hr2 & Hm2 & HL2 & HLs2 & HLo2 & Hv2).
  assert (Hs2 : L2 (S r) (hp T (S r) d) = Some s) by (by rewrite HL2 by lia).
  destruct (rep_get _ _ _ _ HR2 _ _ _ Hpd Hs2) as [nd2 E2]. rewrite (deref_ok _ _ _ E2). cbn [bind snd fst].
  assert (El2 : i_l nd2 = L2 r (2 * d)).
  { rewrite <- (rp_kid _ _ _ _ HR2 r (2 * d)) by (by rewrite Hh1). rewrite Hh1, Hs2, Ho1, (nc_some _ _ _ _ E2). done. }
  assert (Er2 : i_r nd2 = L2 r (2 * d + 1)).
  { rewrite <- (rp_kid _ _ _ _ HR2 r (2 * d + 1)) by (by rewrite Hh2). rewrite Hh2, Hs2, Ho2, (nc_some _ _ _ _ E2). done. }
  rewrite Hpn, Epos.
  assert (Hsl : slot R (N.of_nat r + 1) d).
  { apply node_slot. by replace (N.of_nat r + 1) with (N.of_nat (S r)) by lia. }
  replace (N.of_nat (S r)) with (N.of_nat r + 1) by lia.
  rewrite LeftChild_ok by done. cbn [bind]. rewrite Child_ok by (done || lia). cbn [bind].
  exists p2, L2. split_and!; try done.
  - rewrite El2, Er2, El, Er.
    assert (Ei : forall o : option loc, is_null o = negb (pres1 o)) by (by intros []). rewrite !Ei, !negb_involutive. done.
  - intros r' i l E. destruct (decide (r' = r /\ i = 2 * d + 1)) as [[-> ->]|Hne]; [rewrite HLo2; [done|by rewrite E]|].
    rewrite HL2 by done. destruct (decide (r' = r /\ i = 2 * d)) as [[-> ->]|Hne2]; [rewrite HLo1; [done|by rewrite E]|]. by rewrite HL1.
  - intros r' i Hne. rewrite HL2, HL1; [done|..]; intros [-> ->]; apply Hne; tauto.
  - rewrite HL2 by lia. done.
  - intros l Hl. rewrite Hv2 by lia. by apply Hv1.
Qed.
End Init.
