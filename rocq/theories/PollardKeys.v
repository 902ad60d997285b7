(** * PollardKeys: the position map of a pollard only knows leaves of the forest (proofs) *)
From stdpp Require Import sorting.
From Verif Require Import Base StateModel CodecModel ForestModel PollardModel CheckedModel PosSpec PosFacts PathFacts MerkleSpec CodecSpec CodecFacts TargetFacts ForestFacts
  RowFacts TransformFacts SpecFacts RemoveFacts ForestInv AddFacts ForestSpec HistFacts ProofSpec ProveFacts PollardSpec PollardRep PollardOps PollardAdd PosmapFacts PollardRemove PollardRows PollardInit PollardCreate
  PollardVerify PollardVerifyMain PollardPrune PollardHist PollardProps PollardCount PollardRecall CheckedFacts.
From Coq Require Import ZifyBool ZifyNat ZifyN.
Ltac Zify.zify_post_hook ::= idtac.

Lemma restore_posmap roots n p : Pollard_restore roots n = Ok p -> p_posmap p = ∅.
Proof.
  unfold Pollard_restore. intros E. do 3 (apply bind_inv in E as (? & _ & E)). revert E.
  assert (E0 : p_posmap (Pollard_new n) = ∅) by done. revert E0. generalize (Pollard_new n). generalize (nseq 0 (size roots)).
  intros l. induction l as [|i l IH]; intros q Eq; cbn [foldM]; intros E; [by apply Ok_inv in E as <-|].
  apply bind_inv in E as (q1 & E1 & E). apply IH in E; [done|]. do 2 (apply bind_inv in E1 as (? & _ & E1)).
  destruct (alloc q _) as [q2 l2] eqn:Ea. unfold alloc in Ea. injection Ea as <- <-. by apply Ok_inv in E1 as <-.
Qed.
Lemma prune_posmap p p' : P_Prune p = Ok p' -> p_posmap p' = p_posmap p.
Proof. unfold P_Prune. intros E. do 2 (apply bind_inv in E as (? & _ & E)). by apply Ok_inv in E as <-. Qed.
Lemma pm_add_keys (a b : list N) : forall (m : gmap N N) h, is_Some (pm_add m (zip a b) !! h) -> is_Some (m !! h) \/ h ∈ a.
Proof. intros m h Hh. destruct (decide (h ∈ a)) as [|Hn]; [by right|left]. by rewrite pm_add_notin in Hh by done. Qed.

Section Keys.
Context (H : hash -> hash -> hash).

Lemma keys_remove p1 ls M ts (adds : list leaf) : PStockM H p1 ls ts M -> NoDup ls -> (forall h, is_Some (p_posmap p1 !! h) -> h ∈ ls) -> valid_targets (size ls) ts ->
  size ls < 2 ^ 31 -> size ls + size adds < 2 ^ 31 + size ts ->
  exists p2 p3, P_Remove H p1 ts = Ok (true, p2) /\ P_Add H p2 adds = Ok p3 /\ P_Modify H p1 adds ts = Ok (true, p3) /\
    (forall h, is_Some (p_posmap p2 !! h) -> h ∈ spec_remove ls ts) /\
    forall h, is_Some (p_posmap p3 !! h) -> h ∈ spec_remove ls ts ++ adds.*1.
Proof.
  assert (H62 : 2 ^ 31 + 2 ^ 31 <= 2 ^ 62) by done. intros Hrd Hnd Hk1 Hv Hn Hb. pose proof (valid_size H _ _ Hv) as Hsz.
  assert (Hrem : exists p2 M1, P_Remove H p1 ts = Ok (true, p2) /\ PMark H p2 (spec_remove ls ts) M1 /\
    size (spec_remove ls ts) + size ts = size ls /\
    forall h, is_Some (p_posmap p2 !! h) -> is_Some (p_posmap p1 !! h) /\ h ∉ leaf_at ls <$> ts).
  { destruct (decide (ts = [])) as [->|Hne].
    - exists p1, M. split; [done|]. rewrite spec_remove_nil. destruct Hrd as (Hpn & L & HR & Hg & _). split; [split; [done|]; by exists L|].
      split; [unfold size; cbn [length]; lia|]. intros h Hh. split; [done|]. by intros ?%elem_of_nil.
    - destruct (P_Remove_mark H p1 ls _ M Hrd ltac:(lia) Hv Hne) as (p2 & M1 & E1 & HP1 & Hs1 & _ & Hky & _). exists p2, M1. split; [done|]. split; [done|].
      split; [lia|]. by apply Hky. }
  destruct Hrem as (p2 & M1 & E1 & HP1 & Hs1 & Hky).
  destruct (P_Add_mark H adds p2 _ M1 HP1 ltac:(lia)) as (p3 & M3 & E3 & _).
  assert (Hk2 : forall h, is_Some (p_posmap p2 !! h) -> h ∈ spec_remove ls ts).
  { intros h Hh. apply Hky in Hh as [Hh Hnt]. apply Hk1 in Hh. rewrite spec_remove_perm. apply survivors_iff.
    apply elem_leaf_at in Hh as (i & Hi & <-). exists i. split; [done|]. split; [|done]. intros Hx. apply Hnt. by apply elem_of_list_fmap_1. }
  exists p2, p3. split; [done|]. split; [done|]. split; [unfold P_Modify; rewrite E1; cbn [bind fst snd negb]; by rewrite E3|]. split; [done|].
  intros h Hh. apply elem_of_app. destruct (P_Add_keys H adds p2 p3 h E3 Hh) as [Hx|Hx]; [left; by apply Hk2|by right].
Qed.
(** One block: the pollard after a verified proof, before and after Modify. *)
Lemma keys_block p ls bp ths p1 (adds : list leaf) : (forall h, is_Some (p_posmap p !! h) -> h ∈ ls) -> NoDup ls -> PInv H p ls -> size ls < 2 ^ 31 -> proof_wf bp ->
  P_Verify H p bp ths = Ok (true, p1) -> ~ shows_collision H p1 ls -> size ls + size adds < 2 ^ 31 + size (m_sorted_targets bp) ->
  (forall h, is_Some (p_posmap p1 !! h) -> h ∈ ls) /\
  exists p2 p3, P_Remove H p1 (m_sorted_targets bp) = Ok (true, p2) /\ P_Add H p2 adds = Ok p3 /\ P_Modify H p1 adds (m_sorted_targets bp) = Ok (true, p3) /\
    (forall h, is_Some (p_posmap p2 !! h) -> h ∈ spec_remove ls (m_sorted_targets bp)) /\
    forall h, is_Some (p_posmap p3 !! h) -> h ∈ spec_remove ls (m_sorted_targets bp) ++ adds.*1.
Proof.
  assert (H62 : 2 ^ 31 + 2 ^ 31 <= 2 ^ 62) by done.
  intros Hk Hnd HP Hn Hwf E Hnc Hb. apply PInv_mark in HP as [M0 HP].
  pose proof (Verify_mark H p ls M0 bp ths HP Hn Hwf) as HV. rewrite E in HV. cbn [wp] in HV. destruct HV as (_ & _ & _ & Ht & _).
  destruct (Ht eq_refl) as [(Hv & _ & Epm) [Hc|[(M & Hrd & _) Hths]]]; [done|].
  assert (Hlt : forall t, t ∈ m_sorted_targets bp -> t < size ls) by (apply Forall_forall, Hv).
  assert (Hk1 : forall h, is_Some (p_posmap p1 !! h) -> h ∈ ls).
  { intros h Hh. rewrite Epm in Hh. apply pm_add_keys in Hh as [Hh|Hh]; [by apply Hk|].
    rewrite Hths in Hh. apply elem_of_list_fmap in Hh as (t & -> & Hx). by apply leaf_at_elem, Hlt. }
  split; [done|]. apply (keys_remove p1 ls M _ adds (PReadyM_stock _ _ _ _ _ Hrd)); done.
Qed.

Lemma synced_keys f p : synced H f p -> forall ls, holds_leaves f ls -> forall h, is_Some (p_posmap p !! h) -> h ∈ ls.
Proof.
  induction 1 as [|f us p Hr E|f p bp ths b p' Hs IH (Hwf & E & Hnc)|f p p' Hs IH E|f p bp ths p1 adds f' p' Hs IH (Hwf & E & Hnc) Hb EF EP|f p adds ts f' p' Hs IH Hst Hb EF EP]; intros ls Hh h Hx.
  - change (is_Some ((∅ : gmap N N) !! h)) in Hx. rewrite lookup_empty in Hx. by destruct Hx.
  - rewrite (restore_posmap _ _ _ E), lookup_empty in Hx. by destruct Hx.
  - destruct (synced_holds H f p ls Hs Hh) as (us & Hr & Hn & HP & _).
    pose proof (Verify_inv H p ls bp ths HP ltac:(lia) Hwf) as HV. rewrite E in HV. cbn [wp] in HV. destruct HV as (_ & _ & Hf & Ht & _). destruct b.
    + destruct (Ht eq_refl) as [(Hv & _ & Epm) [Hc|[_ Hths]]]; [by apply Hnc in Hc|]. rewrite Epm in Hx. apply pm_add_keys in Hx as [Hx|Hx]; [by eapply IH|].
      rewrite Hths in Hx. apply elem_of_list_fmap in Hx as (t & -> & Hx). apply leaf_at_elem. destruct Hv as [_ Hv]. rewrite Forall_forall in Hv. by apply Hv.
    + destruct (Hf eq_refl) as [Epm _]. rewrite Epm in Hx. by eapply IH.
  - rewrite (prune_posmap _ _ E) in Hx. by eapply IH.
  - destruct (synced_inv H f p Hs) as (us & ls0 & Hr & Hh0 & Hn & HP). pose proof Hh0 as [Hfn _]. rewrite Hfn in Hb.
    destruct (reachable_holds H f us ls0 Hr Hh0) as (Hi & _). pose proof (inv_NoDup H f ls0 Hi) as Hnd.
    pose proof (C03_lem H f us ls0 adds _ f' Hr Hh0 Hb (or_introl EF)) as Hh'.
    rewrite (holds_unique f' _ _ Hh Hh').
    destruct (keys_block p ls0 bp ths p1 adds (IH ls0 Hh0) Hnd HP Hn Hwf E (Hnc ls0 Hh0) Hb) as (_ & p2 & p3 & _ & _ & E3 & _ & Hk3).
    rewrite EP in E3. apply Ok_inv in E3. injection E3 as <-. by apply Hk3.
  - destruct (synced_inv H f p Hs) as (us & ls0 & Hr & Hh0 & Hn & [M HP]%PInv_mark). destruct (stored_targets H f us ls0 adds ts f' Hr Hh0 Hb EF) as [Hv _].
    assert (H62 : 2 ^ 31 <= 2 ^ 62) by done. pose proof Hh0 as [Hfn _]. pose proof (stored_stock H f p ls0 M ts HP ltac:(lia) Hfn Hst) as Hrd. rewrite Hfn in Hb.
    destruct (reachable_holds H f us ls0 Hr Hh0) as (Hi & _). pose proof (inv_NoDup H f ls0 Hi) as Hnd.
    pose proof (C03_lem H f us ls0 adds _ f' Hr Hh0 Hb (or_introl EF)) as Hh'. rewrite (holds_unique f' _ _ Hh Hh').
    destruct (keys_remove p ls0 M ts adds Hrd Hnd (IH ls0 Hh0) Hv Hn Hb) as (p2 & p3 & _ & _ & E3 & _ & Hk3).
    rewrite EP in E3. apply Ok_inv in E3. injection E3 as <-. by apply Hk3.
Qed.

Lemma lookup_all_keys (m : gmap N N) hs ts : lookup_all m hs = Some ts -> forall h, h ∈ hs -> is_Some (m !! h).
Proof.
  revert ts. induction hs as [|x hs IH]; intros ts; cbn [lookup_all]; intros E h; [by intros ?%elem_of_nil|].
  destruct (m !! x) as [t|] eqn:Ex; [|done]. destruct (lookup_all m hs) as [ts'|] eqn:Er; [|done].
  intros [->|Hh]%elem_of_cons; [by rewrite Ex|by eapply IH].
Qed.
Lemma prove_keys f p ls hs bp : synced H f p -> holds_leaves f ls -> P_Prove p hs = Ok (Some bp) -> forall h, h ∈ hs -> h ∈ ls.
Proof.
  intros Hs Hh E h Hx. unfold P_Prove in E. destruct (lookup_all (p_posmap p) hs) as [ts|] eqn:El; [|done].
  eapply (synced_keys f p Hs ls Hh). by eapply lookup_all_keys.
Qed.
Lemma prove_absent f p ls hs h : synced H f p -> holds_leaves f ls -> h ∈ hs -> h ∉ ls -> P_Prove p hs = Ok None.
Proof.
  intros Hs Hh Hx Hn. unfold P_Prove. destruct (lookup_all (p_posmap p) hs) as [ts|] eqn:El; [|done].
  destruct Hn. eapply (synced_keys f p Hs ls Hh). by eapply lookup_all_keys.
Qed.
Lemma VP_Modify_eq f p bp ths p1 (adds : list leaf) f' : synced H f p -> verifies H f p bp ths true p1 ->
  f_n f + size adds < 2 ^ 31 + size (m_sorted_targets bp) -> F_Modify H f adds (m_sorted_targets bp) = Ok (true, f') ->
  VP_Modify H p1 adds (m_sorted_targets bp) = P_Modify H p1 adds (m_sorted_targets bp).
Proof.
  intros Hs (Hwf & E & Hnc) Hb EF. destruct (synced_inv H f p Hs) as (us & ls & Hr & Hh & Hn & HP). pose proof Hh as [Hfn _]. rewrite Hfn in Hb.
  destruct (reachable_holds H f us ls Hr Hh) as (Hi & _). pose proof (inv_NoDup H f ls Hi) as Hnd.
  pose proof (C03_lem H f us ls adds _ f' Hr Hh Hb (or_introl EF)) as Hh'.
  assert (Hr' : reachable H f' []) by (eapply reach_modify; [exact Hr| |exact EF]; by rewrite Hfn).
  destruct (reachable_holds H f' [] _ Hr' Hh') as (Hi' & _). pose proof (inv_NoDup H f' _ Hi') as Hnd'.
  destruct (keys_block p ls bp ths p1 adds (synced_keys f p Hs ls Hh) Hnd HP Hn Hwf E (Hnc ls Hh) Hb) as (_ & p2 & p3 & E2 & E3 & E4 & Hk2 & _).
  rewrite E4. unfold VP_Modify. rewrite E2. cbn [bind fst snd negb].
  rewrite (unknown_NoDup (p_posmap p2) (spec_remove ls (m_sorted_targets bp)) adds); [|intros h q Hq; apply Hk2; by rewrite Hq|done].
  cbn [assert_ bind]. by rewrite E3.
Qed.
End Keys.
