(** * PollardMore: modifying what is cached, ownership, proofs over the wire (proofs) *)
From stdpp Require Import sorting.
From Verif Require Import Base StateModel CodecModel ForestModel PollardModel PosSpec PosFacts PathFacts MerkleSpec CodecSpec CodecFacts TargetFacts ForestFacts
  RowFacts TransformFacts SpecFacts RemoveFacts ForestInv AddFacts ForestSpec HistFacts ProofSpec ProveFacts PollardSpec PollardRep PollardOps PollardAdd PollardRemove PollardRows PollardInit PollardCreate
  PollardVerify PollardVerifyMain PollardPrune PollardHist PollardProps PollardCount PollardRecall.
From Coq Require Import ZifyBool ZifyNat ZifyN.
Ltac Zify.zify_post_hook ::= idtac.
Ltac dlia := zify; Z.div_mod_to_equations; lia.

Section Own.
Context (p : pollard) (T : list (N * N)) (L : lmap) (M : N -> bool) (HR : rep p T L M) (HT : NoDup T).
Let Hd := rp_disj _ _ _ _ HR.

Lemma own_down r i l lr l' : inT T r i -> L r i = Some l -> owns p l lr l' ->
  l' = rem \/ exists r' j, r = S r' /\ inT T (S r') j /\ i = hp T (S r') j /\ l' <> rem /\ L r' (2 * j + (if lr then 1 else 0)) = Some l'.
Proof.
  intros Hi El (_ & nd & End & En). pose proof (inT_hp _ _ _ Hd Hi) as Hj. pose proof (hp_hp T r i Hd Hi) as Hh. remember (hp T r i) as j eqn:Ej. clear Ej. destruct r as [|r].
  - left. pose proof (rp_leaf _ _ _ _ HR j Hj) as E1. pose proof (rp_leaf' _ _ _ _ HR j Hj) as E2. rewrite Hh, El, (nc_some _ _ _ _ End) in E1. rewrite Hh, El, (nc_some _ _ _ _ End) in E2.
    destruct lr; [congruence|]. rewrite E1 in En. unfold mark in En. destruct (M j); [by injection En|done].
  - right. exists r, j. destruct (half_2 j) as [D1 D2]. destruct (odd_2 j) as [O1 O2]. split; [done|]. split; [done|]. split; [done|].
    assert (E : L r (2 * j + (if lr then 1 else 0)) = Some l').
    { destruct lr.
      - pose proof (rp_kid _ _ _ _ HR r (2 * j + 1) ltac:(by rewrite D2)) as E. rewrite D2, O2, Hh, El, (nc_some _ _ _ _ End) in E. congruence.
      - pose proof (rp_kid _ _ _ _ HR r (2 * j) ltac:(by rewrite D1)) as E. rewrite D1, O1, Hh, El, (nc_some _ _ _ _ End) in E. rewrite N.add_0_r. congruence. }
    split; [|done]. eapply (rp_dom _ _ _ _ HR); [|exact E]. apply inT_kid. destruct lr; [by rewrite D2|by rewrite N.add_0_r, D1].
Qed.
Lemma live_at l : live p l -> l = rem \/ exists r i, inT T r i /\ L r i = Some l.
Proof.
  induction 1 as [k r l Hk El|l lr l' _ IH Ho].
  - right. pose proof (rp_roots _ _ _ _ HR) as E. assert (Hl : (pr_node <$> p_roots p) !! k = Some (Some l)) by (by rewrite list_lookup_fmap, Hk, <- El).
    rewrite E, list_lookup_fmap in Hl. destruct (T !! k) as [[a b]|] eqn:Et; [|done]. injection Hl as Hl. exists (N.to_nat a), b. split; [|done].
    apply inT_root. rewrite N2Nat.id. by eapply elem_of_list_lookup_2.
  - destruct IH as [->|(r & i & Hi & El)]; [by destruct Ho|]. destruct (own_down r i l lr l' Hi El Ho) as [->|(r' & j & -> & Hj & _ & _ & E)]; [by left|].
    right. eexists r', _. split; [|exact E]. destruct (kid_in T r' j Hj) as [K1 K2]. destruct lr; [done|by rewrite N.add_0_r].
Qed.
Lemma live_stored l : live p l -> l = rem \/ is_Some (p_heap p !! l).
Proof. intros [->|(r & i & Hi & El)]%live_at; [by left|]. right. by eapply (rp_dom _ _ _ _ HR). Qed.
Lemma own_rank l l' : tc (λ a b, exists lr, owns p a lr b) l l' -> forall r i, inT T r i -> L r i = Some l -> l' <> rem -> exists r' i', (r' < r)%nat /\ inT T r' i' /\ L r' i' = Some l'.
Proof.
  induction 1 as [l l' [lr Ho]|l l1 l' [lr Ho] Htc IH]; intros r i Hi El Hne.
  - destruct (own_down r i l lr l' Hi El Ho) as [->|(r' & j & -> & Hj & _ & _ & E)]; [done|]. eexists r', _. split; [lia|]. split; [|exact E].
    destruct (kid_in T r' j Hj) as [K1 K2]. destruct lr; [done|by rewrite N.add_0_r].
  - destruct (own_down r i l lr l1 Hi El Ho) as [->|(r' & j & -> & Hj & _ & _ & E)].
    { exfalso. inversion Htc as [? ? [? [? _]]|? ? ? [? [? _]]]; done. }
    assert (HK : inT T r' (2 * j + (if lr then 1 else 0))) by (destruct (kid_in T r' j Hj) as [K1 K2]; destruct lr; [done|by rewrite N.add_0_r]).
    destruct (IH r' _ HK E Hne) as (r2 & i2 & ? & ? & ?). exists r2, i2. split; [lia|]. done.
Qed.
Lemma own_acyclic l : live p l -> ~ tc (λ a b, exists lr, owns p a lr b) l l.
Proof.
  intros [->|(r & i & Hi & El)]%live_at Htc; [inversion Htc as [? ? [? [? _]]|? ? ? [? [? _]]]; done|].
  destruct (own_rank l l Htc r i Hi El) as (r' & i' & Hlt & Hi' & El'); [by eapply (rp_dom _ _ _ _ HR)|].
  destruct (rp_inj _ _ _ _ HR r i r' i' l) as [-> _]; [done..|]. lia.
Qed.
(** Where the pointer to the node at (r, i) is. *)
Lemma held_at o l : l <> rem -> held p o l -> exists r i, inT T r i /\ L r i = Some l /\
  match o with
  | inl k => T !! k = Some (N.of_nat r, i)
  | inr (l0, lr) => exists j, inT T (S r) j /\ i = 2 * j + (if lr : bool then 1 else 0) /\ L (S r) (hp T (S r) j) = Some l0
  end.
Proof.
  intros Hne Ho. destruct o as [k|[l0 lr]].
  - destruct Ho as (r & Hk & El). pose proof (rp_roots _ _ _ _ HR) as E. assert (Hl : (pr_node <$> p_roots p) !! k = Some (Some l)) by (by rewrite list_lookup_fmap, Hk, <- El).
    rewrite E, list_lookup_fmap in Hl. destruct (T !! k) as [[a b]|] eqn:Et; [|done]. injection Hl as Hl. exists (N.to_nat a), b. cbn [fst snd] in Hl. rewrite N2Nat.id. split; [|done].
    apply inT_root. rewrite N2Nat.id. by eapply elem_of_list_lookup_2.
  - destruct Ho as [[->|(r & i & Hi & El)]%live_at Ho]; [by destruct Ho|]. destruct (own_down r i l0 lr l Hi El Ho) as [->|(r' & j & -> & Hj & -> & _ & E)]; [done|].
    eexists r', _. split; [|split; [exact E|by exists j]]. destruct (kid_in T r' j Hj) as [K1 K2]. destruct lr; [done|by rewrite N.add_0_r].
Qed.
Lemma held_once o o' l : l <> rem -> held p o l -> held p o' l -> o = o'.
Proof.
  intros Hne Ho Ho'. destruct (held_at o l Hne Ho) as (r & i & Hi & El & Hx). destruct (held_at o' l Hne Ho') as (r' & i' & Hi' & El' & Hx').
  destruct (rp_inj _ _ _ _ HR r i r' i' l) as [<- <-]; [done..|]. destruct o as [k|[l0 lr]], o' as [k'|[l0' lr']].
  - f_equal. by eapply NoDup_lookup.
  - exfalso. destruct Hx' as (j & Hj & -> & _). apply elem_of_list_lookup_2 in Hx. revert Hx. apply kid_not_root; [done|]. destruct (half_2 j) as [D1 D2]. destruct lr'; [by rewrite D2|by rewrite N.add_0_r, D1].
  - exfalso. destruct Hx as (j & Hj & -> & _). apply elem_of_list_lookup_2 in Hx'. revert Hx'. apply kid_not_root; [done|]. destruct (half_2 j) as [D1 D2]. destruct lr; [by rewrite D2|by rewrite N.add_0_r, D1].
  - destruct Hx as (j & Hj & -> & E), Hx' as (j' & Hj' & Ei & E'). assert (j = j' /\ lr = lr') as [-> ->] by (destruct lr, lr'; split; (done || lia)). rewrite E in E'. by injection E' as ->.
Qed.
End Own.

Section More.
Context (H : hash -> hash -> hash).
Implicit Types (f : forest) (p : pollard) (ls : list hash).

Lemma ownership_lem f p : synced H f p ->
  (forall l, live p l -> l = rem \/ is_Some (p_heap p !! l)) /\
  (forall l, live p l -> ~ tc (λ a b, exists lr, owns p a lr b) l l) /\
  (forall o o' l, l <> rem -> held p o l -> held p o' l -> o = o').
Proof.
  intros Hs. destruct (synced_inv H f p Hs) as (us & ls & Hr & Hh & Hn & [M (Hpn & L & HR & Hg)]%PInv_mark). split; [|split].
  - apply (live_stored p _ L M HR).
  - apply (own_acyclic p _ L M HR).
  - apply (held_once p _ L M HR). apply trees_nodup.
Qed.

(** ** Modifying what is cached (C33) *)
Lemma C33_partial_lem f p lo hi (adds : list leaf) ts f' : recalls H f p lo hi ->
  (forall t, t ∈ ts -> exists h, F_GetLeaf f t = Ok h /\ h ∈ lo) ->
  (forall R r i, is_height (f_n f) R -> computed (f_n f) ts r i -> exists v, P_Read p (enc R r i) = Ok (Some v)) ->
  f_n f + size adds < 2 ^ 31 + size ts -> F_Modify H f adds ts = Ok (true, f') ->
  exists p', P_Modify H p adds ts = Ok (true, p') /\ P_Roots p' = Ok (F_Roots f') /\ p_n p' = f_n f'.
Proof.
  intros Hrc Hlo Hcomp Hb EF. destruct (recalls_inv H f p lo hi Hrc) as (us & ls & M & Hr & Hh & Hn & (Hpn & L & HR & Hg) & (H1 & H2 & H3)).
  destruct (reachable_holds H f us ls Hr Hh) as (Hi & _). pose proof Hh as [Hfn Hgl]. rewrite Hfn in *.
  destruct (C02_lem H f us ls adds ts f' Hr Hh Hb ltac:(by left)) as [Hv _]. pose proof (valid_size H _ _ Hv) as Hsz. assert (H62 : 2 ^ 31 + 2 ^ 31 <= 2 ^ 62) by done.
  assert (Hlt : forall t, t ∈ ts -> t < size ls) by (apply Forall_forall, Hv).
  assert (HM : forall t, t ∈ ts -> M t = true).
  { intros t Ht. destruct (Hlo t Ht) as (h & Eh & Hx). rewrite (Hgl t (Hlt t Ht)) in Eh. injection Eh as <-. by apply H2; [apply Hlt|]. }
  assert (Hrd : PReadyM H p ls ts M).
  { split; [done|]. exists L. split; [done|]. split; [done|]. split; [|done]. intros r i [Hc|Hnd].
    - destruct (Hcomp (NumRows (size ls)) (N.of_nat r) i ltac:(by apply NumRows_height) Hc) as [v E].
      rewrite (P_Read_ok (size ls) ltac:(lia) p L M r i Hpn HR ltac:(apply Hc)) in E. injection E as E. apply fmap_Some in E as (l & -> & _). done.
    - destruct (needed_one _ _ _ _ Hnd) as (t & Ht & Hnd'). apply (mark_path H (size ls) p L M t r i ltac:(lia) HR (Hlt t Ht) (HM t Ht) Hnd'). }
  destruct (P_Modify_mark H p ls ts M adds (PReadyM_stock _ _ _ _ _ Hrd) ltac:(lia) Hv) as (p' & M1 & M' & EP & HP' & _). exists p'. split; [done|].
  pose proof (C03_lem H f us ls adds ts f' Hr Hh Hb ltac:(by left)) as Hh'.
  assert (Hr' : reachable H f' []) by (eapply reach_modify; [exact Hr| |exact EF]; by rewrite Hfn).
  destruct (reachable_holds H f' [] _ Hr' Hh') as (Hi' & _). assert (HPI : PInv H p' (spec_remove ls ts ++ adds.*1)) by (apply PInv_mark; by exists M').
  rewrite (PInv_roots H p' _ HPI), (inv_roots _ _ _ Hi'). split; [done|]. destruct HPI as [-> _]. by destruct Hh' as [-> _].
Qed.
End More.
