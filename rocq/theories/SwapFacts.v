(** * SwapFacts: exchanging two subtrees of a pollard (proofs) *)
From stdpp Require Import sorting.
From Verif Require Import Base StateModel CodecModel ForestModel PollardModel PosSpec PosFacts PathFacts MerkleSpec CodecSpec CodecFacts TargetFacts ForestFacts
  RowFacts TransformFacts SpecFacts RemoveFacts ForestInv AddFacts ForestSpec HistFacts ProofSpec ProveFacts PollardSpec PollardRep PollardOps PollardAdd PollardRemove PollardRows PollardInit PollardCreate
  PollardVerify PollardVerifyMain PollardPrune PollardHist PollardProps PosmapFacts ForestExamples PollardExamples SwapSpec.
From Coq Require Import ZifyBool ZifyNat ZifyN.
Ltac Zify.zify_post_hook ::= idtac.

Section Swap.
Context (n : N) (Hn : n <= 2 ^ 62).
Notation R := (NumRows n).
Notation T := (trees n).
Let Hd : disj T := trees_disj n.

Lemma enc_odd r i : r <= R -> N.odd (enc R r i) = N.odd i.
Proof. intros Hr. rewrite <- !N.negb_even. by rewrite enc_parity. Qed.

Definition rd (L : lmap) (g : nat -> N -> hash) (r : nat) (x : N) : option hash := match L r x with Some _ => Some (g r x) | None => None end.
Lemma rd_read p L M g r i : p_n p = n -> rep p T L M -> agree p T L g -> node n (N.of_nat r) i -> P_Read p (enc R (N.of_nat r) i) = Ok (rd L g r i).
Proof.
  intros Hpn HR Hg Hi. rewrite (P_Read_ok n Hn p L M r i Hpn HR Hi). unfold rd. destruct (L r i) as [l|] eqn:El; [|done]. cbn.
  do 2 f_equal. apply (Hg r i l); [by apply trees_under|done].
Qed.

Lemma not_both_roots j a x : node n (N.of_nat j) a -> node n (N.of_nat j) x -> x = sib a -> inT T (S j) (a / 2).
Proof.
  intros Ha Hx E. destruct (inT_cases _ _ _ (proj2 (trees_under _ _ _) Ha)) as [Hr|?]; [|done]. exfalso. apply trees_elem in Hr as [_ Hr]. apply Hr.
  subst x. apply node_iff. apply node_iff in Hx, Ha. rewrite div_pow_S. revert Ha Hx. generalize (n / 2 ^ N.of_nat j). intros q H1 H2.
  unfold sib in H2. rewrite even_mod in H2. destruct (N.eqb_spec (a mod 2) 0); dlia.
Qed.

(** The sibling is hooked in where [Read] finds it. *)
Lemma hook_ok p L M g j a k : p_n p = n -> rep p T L M -> agree p T L g -> node n (N.of_nat j) a -> is_Some (L j a) ->
  (N.of_nat (k + j), a / 2 ^ N.of_nat k) ∈ T ->
  exists p1 L1 g1, hook_in_sibling p (ancs T L R k j a) (L j (hp T j a)) (enc R (N.of_nat j) a) = Ok (p1, L1 j (hp T j a)) /\
    is_Some (L1 j (hp T j a)) /\ p_n p1 = n /\ p_posmap p1 = p_posmap p /\ rep p1 T L1 M /\ agree p1 T L1 g1 /\
    (forall r x, is_Some (L r x) -> L1 r x = L r x /\ g1 r x = g r x) /\
    (forall r x, node n (N.of_nat r) x -> rd L1 g1 r x = match rd L g r x with None => if (r =? j)%nat && (x =? sib a) then Some zero_hash else None | o => o end).
Proof.
  intros Hpn HR Hg Ha [la Ela] Hk. destruct (L j (hp T j a)) as [ls|] eqn:Eh.
  - exists p, L, g. split; [by rewrite Eh|]. split; [by rewrite Eh|]. split_and!; try done.
    intros r x Hx. unfold rd. destruct (L r x) eqn:El; [done|]. destruct (Nat.eqb_spec r j) as [->|]; [|done]. destruct (N.eqb_spec x (sib a)) as [E|]; [|done]. exfalso.
    rewrite hp_kid in Eh by (done || by apply (not_both_roots j a x)). congruence.
  - assert (HaT : inT T j a) by (by apply trees_under).
    assert (Hpar : inT T (S j) (a / 2)).
    { destruct (inT_cases _ _ _ HaT) as [Hr|?]; [|done]. rewrite hp_root in Eh by done. congruence. }
    rewrite hp_kid in Eh by done. pose proof (hp_kid T j a Hd Hpar) as Ehp.
    destruct (rep_holder p T L M HR j a la Hpar Ela) as [s Es]. 
    destruct (rep_get p T L M HR (S j) (hp T (S j) (a / 2)) s) as [nd End]; [by apply inT_hp|done|].
    assert (k <> O) as Hk0.
    { intros ->. change (2 ^ N.of_nat 0) with 1 in Hk. rewrite N.div_1_r in Hk. by apply (kid_not_root T j a Hd Hpar). }
    destruct k as [|k]; [done|]. rewrite ancs_cons.
    pose proof (rep_new_kid p T L M j (sib a) s nd HR) as HN. rewrite sib_half in HN. specialize (HN Hpar Es End Eh). cbv zeta in HN. destruct HN as [HR1 Hv1].
    destruct (rp_dom _ _ _ _ HR (S j) _ s (inT_hp _ _ _ Hd Hpar) Es) as (_ & Hs1 & _).
    assert (Eo : N.odd (enc R (N.of_nat j) a) = N.odd a).
    { apply enc_odd. by apply node_row in Ha. }
    eexists _, (Lset L j (sib a) (p_next p)), (PollardOps.gset g j (sib a) zero_hash). split.
    { unfold hook_in_sibling, alloc. rewrite Eo, <- odd_sib. unfold ent. cbn [pn_sib p_heap p_set_heap]. rewrite Es.
      erewrite deref_ok; [|rewrite heap_ne by lia; exact End]. cbn [bind fst snd]. rewrite Ehp, Lset_eq. reflexivity. }
    rewrite Ehp, Lset_eq. split_and!; try done.
    + intros r x l Hx. destruct (decide (r = j /\ x = sib a)) as [[-> ->]|Hne].
      * rewrite Lset_eq, gset_eq. intros [= <-]. cbn [p_heap p_set_heap]. rewrite hv_insert, decide_False by lia. rewrite hv_insert, decide_True by done. done.
      * rewrite Lset_ne, gset_ne by done. intros El. destruct (rp_dom _ _ _ _ HR _ _ _ Hx El) as (_ & Hl & _). rewrite <- (Hg r x l Hx El). apply Hv1. done.
    + intros r x [l El]. assert (r = j /\ x = sib a -> False) by (intros [-> ->]; congruence). by rewrite Lset_ne, gset_ne.
    + intros r x _. unfold rd. destruct (decide (r = j /\ x = sib a)) as [[-> ->]|Hne].
      * rewrite Lset_eq, gset_eq, Eh, Nat.eqb_refl, N.eqb_refl. done.
      * rewrite Lset_ne, gset_ne by done. destruct (L r x); [done|]. destruct (Nat.eqb_spec r j); [|done]. destruct (N.eqb_spec x (sib a)); [|done]. exfalso. by apply Hne.
Qed.

Lemma path_case p L M j a k l : rep p T L M -> node n (N.of_nat j) a -> L j a = Some l -> (N.of_nat (k + j), a / 2 ^ N.of_nat k) ∈ T ->
  k = O \/ is_Some (L (S j) (hp T (S j) (a / 2))).
Proof.
  intros HR Hi Hl Hk. apply trees_under in Hi. destruct (inT_cases _ _ _ Hi) as [Hr|Hx].
  - left. assert (under (N.of_nat (k + j), a / 2 ^ N.of_nat k) j a).
    { split; cbn [fst snd]; [lia|]. do 2 f_equal. lia. }
    pose proof (Hd _ _ j a Hk Hr H (under_root j a)) as E. apply (f_equal fst) in E. cbn [fst] in E. lia.
  - right. by apply (rep_holder p T L M HR j a l).
Qed.

Lemma read_hook p L M g j a : p_n p = n -> rep p T L M -> agree p T L g -> node n (N.of_nat j) a -> is_Some (L j a) ->
  exists q p1 L1 g1, P_ReadSiblings p (enc R (N.of_nat j) a) true = Ok (L j a, L j (hp T j a), q) /\
    hook_in_sibling p q (L j (hp T j a)) (enc R (N.of_nat j) a) = Ok (p1, L1 j (hp T j a)) /\
    is_Some (L1 j (hp T j a)) /\ p_n p1 = n /\ p_posmap p1 = p_posmap p /\ rep p1 T L1 M /\ agree p1 T L1 g1 /\
    (forall r x, is_Some (L r x) -> L1 r x = L r x /\ g1 r x = g r x) /\
    (forall r x, node n (N.of_nat r) x -> rd L1 g1 r x = match rd L g r x with None => if (r =? j)%nat && (x =? sib a) then Some zero_hash else None | o => o end).
Proof.
  intros Hpn HR Hg Ha [la Ela]. destruct (ReadSiblings_ok n Hn p L M true j a Hpn HR Ha) as (k & q & E & Hk & Hq).
  rewrite (Hq eq_refl (path_case p L M j a k la HR Ha Ela Hk)) in E.
  destruct (hook_ok p L M g j a k Hpn HR Hg Ha ltac:(by rewrite Ela) Hk) as (p1 & L1 & g1 & H1). exists (ancs T L R k j a), p1, L1, g1. split; [done|exact H1].
Qed.

Lemma swap_gen p L M g j a b : p_n p = n -> rep p T L M -> agree p T L g -> node n (N.of_nat j) a -> node n (N.of_nat j) b -> a <> b ->
  is_Some (L j a) -> is_Some (L j b) \/ b = sib a ->
  exists p' q L' g', P_SwapSubTrees p (enc R (N.of_nat j) a) (enc R (N.of_nat j) b) = Ok (p', q) /\ p_n p' = n /\ p_posmap p' = p_posmap p /\
    rep p' T L' (Msw j a b M) /\ agree p' T L' g' /\
    forall r x, node n (N.of_nat r) x -> rd L' g' r x = match rd L g r (swt j a b r x) with
      None => if (r =? j)%nat && ((swt j a b r x =? sib a) || (swt j a b r x =? sib b)) then Some zero_hash else None | o => o end.
Proof.
  intros Hpn HR Hg Ha Hb Hab Hla Hlb.
  destruct (read_hook p L M g j a Hpn HR Hg Ha Hla) as (q1 & p1 & L1 & g1 & E1 & Ek1 & Hs1 & Hpn1 & Hpm1 & HR1 & Hg1 & Hx1 & Hr1).
  assert (Hla1 : L1 j a = L j a) by (by apply Hx1).
  pose proof (node_slot _ _ _ Ha) as [Hsl _].
  assert (Hfin : forall p2 L2 g2, rep p2 T L2 M -> agree p2 T L2 g2 -> p_n p2 = n -> p_posmap p2 = p_posmap p ->
     L2 j a = L j a -> L2 j (hp T j a) = L1 j (hp T j a) -> is_Some (L2 j b) -> is_Some (L2 j (hp T j b)) ->
     (forall r x, node n (N.of_nat r) x -> rd L2 g2 r x = match rd L g r x with
        None => if (r =? j)%nat && ((x =? sib a) || (x =? sib b)) then Some zero_hash else None | o => o end) ->
     exists p' L' g', (let* h1 := swap_hash (p_heap p2) (L2 j b) (L j a) in let* h2 := swap_nieces h1 (L2 j (hp T j b)) (L1 j (hp T j a)) in Ok (p_set_heap p2 h2)) = Ok p' /\
       p_n p' = n /\ p_posmap p' = p_posmap p /\ rep p' T L' (Msw j a b M) /\ agree p' T L' g' /\
       forall r x, node n (N.of_nat r) x -> rd L' g' r x = match rd L g r (swt j a b r x) with
         None => if (r =? j)%nat && ((swt j a b r x =? sib a) || (swt j a b r x =? sib b)) then Some zero_hash else None | o => o end).
  { intros p2 L2 g2 HR2 Hg2 Hpn2 Hpm2 Ea Eha Hlb2 Hhb2 Hrd2.
    assert (Ha2 : is_Some (L2 j a)) by (by rewrite Ea). assert (Hha2 : is_Some (L2 j (hp T j a))) by (by rewrite Eha).
    destruct (SwapSubTrees_ok n Hn p2 L2 M g2 j a b Hpn2 HR2 Hg2 Ha Hb Hab Ha2 Hha2 Hlb2 Hhb2) as (h & k & E & _ & HR' & Hg').
    exists (p_set_heap p2 h), (Lsw j a b L2), (fun r i => g2 r (swt j a b r i)). split.
    - rewrite <- Ea, <- Eha. unfold P_SwapSubTrees in E.
      destruct (ReadSiblings_ok n Hn p2 L2 M true j a Hpn2 HR2 Ha) as (ka & qa & Era & _). rewrite Era in E. cbn [bind] in E.
      destruct Hha2 as [ha2 Eha2]. rewrite Eha2 in E. cbn [hook_in_sibling bind] in E.
      destruct (ReadSiblings_ok n Hn p2 L2 M true j b Hpn2 HR2 Hb) as (kb & qb & Erb & _). rewrite Erb in E. rewrite Eha2.
      rewrite Sibling_ok in E by done.
      destruct (N.eqb_spec (enc R (N.of_nat j) (sib a)) (enc R (N.of_nat j) b)) as [Eab%enc_inj1|Eab].
      + pose proof (not_both_roots j a b Ha Hb (eq_sym Eab)) as Hpar.
        assert (Ehb : hp T j a = b) by (by rewrite hp_kid). assert (Ehb' : hp T j b = a) by (rewrite <- Ehb; apply hp_hp; [done|by apply trees_under]).
        rewrite Ehb'. rewrite <- Eha2, Ehb in E. rewrite Ehb in Eha2. rewrite <- Eha2.
        cbn [bind] in E. destruct (swap_hash (p_heap p2) (L2 j b) (L2 j a)) as [h1| | | |]; cbn [bind] in E |- *; try discriminate E.
        destruct (swap_nieces h1 (L2 j a) (L2 j b)) as [h2| | | |]; cbn [bind] in E |- *; try discriminate E. by injection E as -> _.
      + cbn [bind] in E. destruct Hhb2 as [hb2 Ehb2]. rewrite Ehb2 in E |- *. cbn [hook_in_sibling bind fst snd] in E.
        destruct (swap_hash (p_heap p2) (L2 j b) (L2 j a)) as [h1| | | |]; cbn [bind] in E |- *; try discriminate E.
        destruct (swap_nieces h1 (Some hb2) (Some ha2)) as [h2| | | |]; cbn [bind] in E |- *; try discriminate E. by injection E as -> _.
    - split_and!; try done. intros r x Hx. 
      assert (Hsw : node n (N.of_nat r) (swt j a b r x)) by (by apply swt_node). rewrite <- (Hrd2 r _ Hsw). unfold rd, Lsw.
      destruct (Nat.ltb_spec r j) as [Hlt|Hge]; [done|]. destruct (Nat.eq_dec r j) as [->|].
      + rewrite swt_self. destruct Hlb2 as [lb2 Elb2], Ha2 as [la2 Ela2]. unfold sw. destruct (N.eqb_spec x a) as [->|]; [by rewrite Ela2, Elb2|].
        destruct (N.eqb_spec x b) as [->|]; [by rewrite Ela2, Elb2|done].
      + rewrite swt_above by lia. done. }
  unfold P_SwapSubTrees. rewrite E1. cbn [bind]. rewrite Ek1. cbn [bind]. rewrite Sibling_ok by done.
  destruct (N.eqb_spec (enc R (N.of_nat j) (sib a)) (enc R (N.of_nat j) b)) as [Eab%enc_inj1|Eab].
  - pose proof (not_both_roots j a b Ha Hb (eq_sym Eab)) as Hpar.
    assert (Ehb : hp T j a = b) by (by rewrite hp_kid). assert (Ehb' : hp T j b = a) by (rewrite <- Ehb; apply hp_hp; [done|by apply trees_under]).
    destruct (Hfin p1 L1 g1 HR1 Hg1 Hpn1 Hpm1 Hla1 eq_refl) as (p' & L' & g' & E & H1); [by rewrite <- Ehb|by rewrite Ehb', Hla1| |].
    { intros r x Hx. rewrite (Hr1 r x Hx). assert (Esb : sib b = a) by (rewrite <- Eab; apply sib_sib). rewrite Esb.
      destruct (rd L g r x) eqn:Er; [done|]. destruct (Nat.eqb_spec r j) as [->|]; [|done]. cbn [andb]. destruct (N.eqb_spec x (sib a)); [done|]. cbn [orb].
      destruct (N.eqb_spec x a) as [->|]; [|done]. unfold rd in Er. destruct Hla as [la Ela]. by rewrite Ela in Er. }
    exists p', q1, L', g'. split; [|exact H1]. cbn [bind]. rewrite Ehb', Hla1, Ehb in E. rewrite Ehb.
    destruct (swap_hash (p_heap p1) (L1 j b) (L j a)) as [h1| | | |]; cbn [bind] in E |- *; try discriminate E.
    destruct (swap_nieces h1 (L j a) (L1 j b)) as [h2| | | |]; cbn [bind] in E |- *; try discriminate E. by injection E as ->.
  - assert (Hlb0 : is_Some (L j b)) by (destruct Hlb as [?|E]; [done|exfalso; apply Eab; by rewrite E]).
    assert (Hlb1 : L1 j b = L j b) by (by apply Hx1).
    destruct (read_hook p1 L1 M g1 j b Hpn1 HR1 Hg1 Hb ltac:(by rewrite Hlb1)) as (q2 & p2 & L2 & g2 & E2 & Ek2 & Hs2 & Hpn2 & Hpm2 & HR2 & Hg2 & Hx2 & Hr2).
    rewrite E2. cbn [bind]. rewrite Ek2. cbn [bind fst snd].
    assert (Hlb2 : L2 j b = L1 j b) by (apply Hx2; by rewrite Hlb1).
    destruct (Hfin p2 L2 g2 HR2 Hg2 Hpn2 ltac:(congruence)) as (p' & L' & g' & E & H1).
    { rewrite <- Hla1. apply Hx2. by rewrite Hla1. }
    { by apply Hx2. }
    { by rewrite Hlb2, Hlb1. }
    { done. }
    { intros r x Hx. rewrite (Hr2 r x Hx), (Hr1 r x Hx). destruct (rd L g r x); [done|]. destruct (Nat.eqb_spec r j) as [->|]; [|done]. cbn [andb].
      destruct (x =? sib a), (x =? sib b); done. }
    exists p', q2, L', g'. split; [|exact H1]. rewrite <- Hlb2.
    destruct (swap_hash (p_heap p2) (L2 j b) (L j a)) as [h1| | | |]; cbn [bind] in E |- *; try discriminate E.
    destruct (swap_nieces h1 (L2 j (hp T j b)) (L1 j (hp T j a))) as [h2| | | |]; cbn [bind] in E |- *; try discriminate E. by injection E as ->.
Qed.

Lemma swap_only p L M g j a b p' q : p_n p = n -> rep p T L M -> agree p T L g -> node n (N.of_nat j) a -> node n (N.of_nat j) b ->
  P_SwapSubTrees p (enc R (N.of_nat j) a) (enc R (N.of_nat j) b) = Ok (p', q) -> is_Some (L j a) /\ (is_Some (L j b) \/ b = sib a).
Proof.
  intros Hpn HR Hg Ha Hb E. assert (Hla : is_Some (L j a)).
  { unfold P_SwapSubTrees in E. destruct (ReadSiblings_ok n Hn p L M true j a Hpn HR Ha) as (k & q0 & E1 & _). rewrite E1 in E. cbn [bind] in E.
    destruct (L j a) as [la|]; [done|]. exfalso. destruct (hook_in_sibling _ _ _ _) as [[p1 o1]| | | |]; cbn [bind] in E; try discriminate E.
    match type of E with bind ?m _ = _ => assert (Hm : forall p2 nt st rp, m = Ok (p2, nt, st, rp) -> st = None \/ True) by tauto; destruct m as [[[[p2 nt] st] rp]| | | |]; cbn [bind] in E; try discriminate E end.
    unfold swap_hash in E. destruct (deref (p_heap p2) nt); cbn [bind deref] in E; discriminate E. }
  split; [done|]. destruct (decide (b = sib a)) as [|Hne]; [by right|]. left.
  destruct (read_hook p L M g j a Hpn HR Hg Ha Hla) as (q1 & p1 & L1 & g1 & E1 & Ek1 & Hs1 & Hpn1 & Hpm1 & HR1 & Hg1 & Hx1 & Hr1).
  unfold P_SwapSubTrees in E. rewrite E1 in E. cbn [bind] in E. rewrite Ek1 in E. cbn [bind] in E.
  pose proof (node_slot _ _ _ Ha) as [Hsl _]. rewrite Sibling_ok in E by done.
  destruct (N.eqb_spec (enc R (N.of_nat j) (sib a)) (enc R (N.of_nat j) b)) as [Eab%enc_inj1|Eab]; [by rewrite Eab in Hne|].
  destruct (ReadSiblings_ok n Hn p1 L1 M true j b Hpn1 HR1 Hb) as (k & q0 & E2 & _). rewrite E2 in E. cbn [bind] in E.
  destruct (hook_in_sibling _ _ _ _) as [[p2 o2]| | | |]; cbn [bind fst snd] in E; try discriminate E.
  destruct (L j b) as [lb|] eqn:Elb; [done|]. exfalso. 
  assert (Hb1 : L1 j b = None).
  { pose proof (Hr1 j b Hb) as Hr. unfold rd in Hr. rewrite Elb in Hr. destruct (N.eqb_spec b (sib a)); [done|]. rewrite andb_false_r in Hr. by destruct (L1 j b). }
  rewrite Hb1 in E. discriminate E.
Qed.
End Swap.

Lemma swt_exchanged j a b r x : a <> b -> swt j a b r x = exchanged (N.of_nat j) a b (N.of_nat r) x.
Proof.
  intros Hab. unfold swt, exchanged. destruct (Nat.leb_spec r j), (N.ltb_spec (N.of_nat j) (N.of_nat r)); try lia.
  replace (N.of_nat (j - r)) with (N.of_nat j - N.of_nat r) by lia. pose proof (pow_pos (N.of_nat j - N.of_nat r)) as Hp. cbv zeta. revert Hp. generalize (2 ^ (N.of_nat j - N.of_nat r)). intros P Hp.
  unfold sw. destruct (N.eqb_spec (x / P) a); [done|]. destruct (N.eqb_spec (x / P) b); [done|]. rewrite (N.div_mod x P) at 3 by lia. lia.
Qed.

Section Theorems.
Context (H : hash -> hash -> hash).

Lemma C71_swap_lem f p R j a b : synced H f p -> is_height (f_n f) R -> node (f_n f) j a -> node (f_n f) j b -> a <> b ->
  stored_at p (enc R j a) -> stored_at p (enc R j b) \/ b = sib a ->
  exists p' q, P_SwapSubTrees p (enc R j a) (enc R j b) = Ok (p', q) /\ p_n p' = p_n p /\ p_posmap p' = p_posmap p /\
    forall r i, node (f_n f) r i -> P_Read p' (enc R r i) = read_filled p R j a b r (exchanged j a b r i).
Proof.
  intros Hs HRh Ha Hb Hab Hsa Hsb. destruct (synced_inv H f p Hs) as (us & ls & Hr & Hh & Hn & (Hpn & L & M & HR & Hg)). pose proof Hh as [Hfn _].
  assert (H62 : 2 ^ 31 <= 2 ^ 62) by done. assert (Hn62 : size ls <= 2 ^ 62) by lia.
  rewrite Hfn in *. apply NumRows_height in HRh as <-.
  rewrite <- (N2Nat.id j) in *. remember (N.to_nat j) as k eqn:Ek. clear Ek j.
  destruct (swap_gen (size ls) Hn62 p L M _ k a b Hpn HR Hg Ha Hb Hab) as (p' & q & L' & g' & E & Hpn' & Hpm' & HR' & Hg' & Hrd).
  { destruct Hsa as [h E]. rewrite (P_Read_ok _ Hn62 p L M k a Hpn HR Ha) in E. by destruct (L k a). }
  { destruct Hsb as [[h E]|E]; [|by right]. left. rewrite (P_Read_ok _ Hn62 p L M k b Hpn HR Hb) in E. by destruct (L k b). }
  exists p', q. split; [done|]. split; [congruence|]. split; [done|]. intros r i Hi.
  rewrite <- (N2Nat.id r) in *. remember (N.to_nat r) as m eqn:Em. clear Em r.
  rewrite <- swt_exchanged by done. rewrite (rd_read _ Hn62 p' L' _ g' m i Hpn' HR' Hg' Hi), (Hrd m i Hi). unfold read_filled.
  rewrite (rd_read _ Hn62 p L M _ m _ Hpn HR Hg) by (by apply swt_node). destruct (rd L _ m _); [done|].
  replace (N.of_nat m =? N.of_nat k) with (m =? k)%nat by (destruct (Nat.eqb_spec m k), (N.eqb_spec (N.of_nat m) (N.of_nat k)); lia || done).
  by destruct (_ && _).
Qed.

Lemma C71_only_lem f p R j a b p' q : synced H f p -> is_height (f_n f) R -> node (f_n f) j a -> node (f_n f) j b ->
  P_SwapSubTrees p (enc R j a) (enc R j b) = Ok (p', q) -> stored_at p (enc R j a) /\ (stored_at p (enc R j b) \/ b = sib a).
Proof.
  intros Hs HRh Ha Hb E. destruct (synced_inv H f p Hs) as (us & ls & Hr & Hh & Hn & (Hpn & L & M & HR & Hg)). pose proof Hh as [Hfn _].
  assert (H62 : 2 ^ 31 <= 2 ^ 62) by done. assert (Hn62 : size ls <= 2 ^ 62) by lia.
  rewrite Hfn in *. apply NumRows_height in HRh as <-.
  rewrite <- (N2Nat.id j) in *. remember (N.to_nat j) as k eqn:Ek. clear Ek j.
  destruct (swap_only (size ls) Hn62 p L M _ k a b p' q Hpn HR Hg Ha Hb E) as [[la Ela] Hlb].
  unfold stored_at. rewrite (P_Read_ok _ Hn62 p L M k a Hpn HR Ha), (P_Read_ok _ Hn62 p L M k b Hpn HR Hb), Ela. split; [by eexists|].
  destruct Hlb as [[lb Elb]|?]; [|by right]. left. rewrite Elb. by eexists.
Qed.
End Theorems.

(** ** Example *)
Definition adds71 : list leaf := [(10, true); (11, false); (12, false); (13, false); (14, false); (15, true); (16, false); (17, false)].
Definition run71 (H : hash -> hash -> hash) : res (bool * option hash * option hash * option hash * option hash * bool) :=
  let* bp := F_Prove (RamForest_new 0) [] in
  match bp with
  | None => UB
  | Some bp =>
      let* v := P_Verify H (Pollard_new 0) bp [] in
      let* p := P_Modify H v.2 adds71 [] in
      let* s := P_SwapSubTrees p.2 9 8 in
      let* a := P_Read p.2 8 in
      let* b := P_Read p.2 2 in
      let* c := P_Read s.1 9 in
      let* d := P_Read s.1 2 in
      Ok (p.1, a, b, c, d, true)
  end.
Lemma run71_ok H : run71 H = Ok (true, None, None, Some 0, Some 10, true).
Proof. vm_compute. reflexivity. Qed.
Lemma run71_inv H : run71 H = Ok (true, None, None, Some 0, Some 10, true) -> exists bp v p p' q, F_Prove (RamForest_new 0) [] = Ok (Some bp) /\
  P_Verify H (Pollard_new 0) bp [] = Ok v /\ P_Modify H v.2 adds71 [] = Ok (true, p) /\ P_SwapSubTrees p 9 8 = Ok (p', q) /\
  P_Read p 8 = Ok None /\ P_Read p 2 = Ok None /\ P_Read p' 9 = Ok (Some 0) /\ P_Read p' 2 = Ok (Some 10).
Proof.
  unfold run71. intros E. apply bind_ok in E as ([bp|] & E1 & E); [|discriminate E]. apply bind_ok in E as (v & E2 & E). apply bind_ok in E as ([b p] & E3 & E).
  apply bind_ok in E as ([p' q] & E4 & E). apply bind_ok in E as (a1 & E5 & E). apply bind_ok in E as (a2 & E6 & E). apply bind_ok in E as (a3 & E7 & E). apply bind_ok in E as (a4 & E8 & E).
  cbn [fst snd] in *. injection E as -> -> -> -> ->. exists bp, v, p, p', q. split; [exact E1|]. split; [exact E2|]. split; [exact E3|]. split; [exact E4|]. 
  split; [exact E5|]. split; [exact E6|]. split; [exact E7|exact E8].
Qed.
Lemma ex_swap H : exists f p p' q, synced H f p /\ holds_leaves f [10; 11; 12; 13; 14; 15; 16; 17] /\ P_SwapSubTrees p 9 8 = Ok (p', q) /\
  P_Read p 8 = Ok None /\ P_Read p 2 = Ok None /\ P_Read p' 9 = Ok (Some 0) /\ P_Read p' 2 = Ok (Some 10).
Proof.
  destruct (run71_inv H (run71_ok H)) as (bp & v & p & p' & q & E1 & E2 & E3 & E4 & E5).
  destruct (sync_step H (RamForest_new 0) (Pollard_new 0) [] adds71 []) as (bp0 & v0 & f & p0 & EB & _ & EV & _ & _ & EP & Hs & Hh).
  - constructor.
  - split; [done|]. intros i Hi. change (size (@nil N)) with 0 in Hi. lia.
  - done.
  - apply valid_nil.
  - apply (bool_decide_unpack _). by vm_compute.
  - change (leaf_at [] <$> []) with (@nil N) in EB, EV. rewrite E1 in EB. injection EB as <-. rewrite E2 in EV. injection EV as ->. cbn [snd] in E3. rewrite E3 in EP. injection EP as <-.
    exists f, p, p', q. split; [exact Hs|]. split; [exact Hh|]. split; [exact E4|exact E5].
Qed.
