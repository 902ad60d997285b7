(** * UnverifiedExamples: deletions that no proof was verified for *)
From stdpp Require Import sorting.
From Verif Require Import Base StateModel CodecModel ForestModel PollardModel CheckedModel PosSpec PosFacts PosmapFacts MerkleSpec TargetFacts ForestFacts RowFacts SpecFacts RemoveFacts ForestInv ForestSpec HistFacts
  ProofSpec ProveFacts PollardSpec PollardRep PollardOps PollardAdd PollardRemove PollardHist PollardProps PollardRecall PollardMore ForestExamples PollardRefute PollardExamples CheckedPollard UniqueFacts MarkSpec MarkFacts MarkExamples.
From Coq Require Import ZifyBool ZifyNat ZifyN.
Ltac Zify.zify_post_hook ::= idtac.

(** Six leaves, of which the first is to be remembered; the third and the fourth are
    deleted without a proof. *)
Definition adds81 : list leaf := [(100, true); (108, false); (130, false); (166, false); (216, false); (280, false)].
Definition run81 (H : hash -> hash -> hash) : res (bool * bool * bool * bool * bool * bool) :=
  let* f := F_Modify H (RamForest_new 0) adds81 [] in
  let* p := P_Modify H (Pollard_new 0) adds81 [] in
  let* f' := F_Modify H f.2 [] [2; 3] in
  let* p' := P_Modify H p.2 [] [2; 3] in
  let* v := VP_Modify H p.2 [] [2; 3] in
  let* r := P_Roots p'.2 in
  let* s := P_Roots v.2 in
  Ok (f.1 && p.1, f'.1, p'.1, v.1, bool_decide (r = F_Roots f'.2), bool_decide (s = F_Roots f'.2)).
Lemma run81_ok : run81 ex_H = Ok (true, true, true, true, false, false).
Proof. vm_compute. reflexivity. Qed.
Lemma run81_inv H : run81 H = Ok (true, true, true, true, false, false) -> exists f p f' p' v r s, synced H f p /\ F_Modify H f [] [2; 3] = Ok (true, f') /\
  P_Modify H p [] [2; 3] = Ok (true, p') /\ P_Roots p' = Ok r /\ r <> F_Roots f' /\ VP_Modify H p [] [2; 3] = Ok (true, v) /\ P_Roots v = Ok s /\ s <> F_Roots f'.
Proof.
  unfold run81. intros E. apply bind_ok in E as ([b1 f] & E1 & E). apply bind_ok in E as ([b2 p] & E2 & E). cbn [fst snd] in E.
  apply bind_ok in E as ([b3 f'] & E3 & E). apply bind_ok in E as ([b4 p'] & E4 & E). cbn [fst snd] in E. apply bind_ok in E as ([b5 v] & E5 & E). cbn [fst snd] in E.
  apply bind_ok in E as (r & E6 & E). apply bind_ok in E as (s & E7 & E). apply Ok_inv in E. injection E as Hb -> -> -> Hr Hs.
  apply andb_true_iff in Hb as [-> ->]. apply bool_decide_eq_false in Hr, Hs. exists f, p, f', p', v, r, s.
  split; [|by split_and!]. by apply (sync_start H adds81).
Qed.

(** ** What remains: the nodes above the targets and their siblings are stored *)
Lemma C81_partial_lem H f p (adds : list leaf) ts f' : synced H f p ->
  has_nodes f p ts ->
  f_n f + size adds < 2 ^ 31 + size ts -> F_Modify H f adds ts = Ok (true, f') ->
  exists p', P_Modify H p adds ts = Ok (true, p') /\ P_Roots p' = Ok (F_Roots f') /\ p_n p' = f_n f' /\ synced H f' p'.
Proof.
  intros Hs Hcomp Hb EF. pose proof Hcomp as Hst. destruct (synced_inv H f p Hs) as (us & ls & Hr & Hh & Hn & [M (Hpn & L & HR & Hg)]%PInv_mark).
  pose proof Hh as [Hfn Hgl]. unfold has_nodes in Hcomp. rewrite Hfn in *.
  destruct (C02_lem H f us ls adds ts f' Hr Hh Hb ltac:(by left)) as [Hv _]. pose proof (valid_size H _ _ Hv) as Hsz. assert (H62 : 2 ^ 31 + 2 ^ 31 <= 2 ^ 62) by done.
  assert (Hrd : PStockM H p ls ts M).
  { split; [done|]. exists L. split; [done|]. split; [done|]. intros r i Hc.
    assert (Hnode : node (size ls) (N.of_nat r) i).
    { destruct Hc as [[Hc _]|Hc%needed_node]; done. }
    destruct (Hcomp (NumRows (size ls)) (N.of_nat r) i ltac:(by apply NumRows_height) Hc) as [v E].
    rewrite (P_Read_ok (size ls) ltac:(lia) p L M r i Hpn HR Hnode) in E. injection E as E. by apply fmap_Some in E as (l & -> & _). }
  destruct (P_Modify_mark H p ls ts M adds Hrd ltac:(lia) Hv) as (p' & M1 & M' & EP & HP' & _). exists p'. split; [done|].
  pose proof (C03_lem H f us ls adds ts f' Hr Hh Hb ltac:(by left)) as Hh'.
  assert (Hr' : reachable H f' []) by (eapply reach_modify; [exact Hr| |exact EF]; by rewrite Hfn).
  destruct (reachable_holds H f' [] _ Hr' Hh') as (Hi' & _). assert (HPI : PInv H p' (spec_remove ls ts ++ adds.*1)) by (apply PInv_mark; by exists M').
  rewrite (PInv_roots H p' _ HPI), (inv_roots _ _ _ Hi'). split; [done|]. split; [destruct HPI as [-> _]; by destruct Hh' as [-> _]|]. eapply sy_stored; [exact Hs|exact Hst| |exact EF|exact EP]. by rewrite Hfn.
Qed.

Definition adds81' : list leaf := [(10, true); (11, false); (12, true); (13, false)].
Definition stores_all (p : pollard) (ps : list N) : bool := forallb (λ x, match P_Read p x with Ok (Some _) => true | _ => false end) ps.
Definition run81' (H : hash -> hash -> hash) : res (bool * bool * bool * N * bool * res hash) :=
  let* f := F_Modify H (RamForest_new 0) adds81' [] in
  let* p := P_Modify H (Pollard_new 0) adds81' [] in
  let* g := F_Modify H f.2 [] [1] in
  Ok (f.1, p.1, g.1, f_n f.2, stores_all p.2 [0; 1; 2; 3; 4; 5; 6], F_GetLeaf f.2 1).
Lemma run81'_ok : run81' ex_H = Ok (true, true, true, 4, true, Ok 11).
Proof. vm_compute. reflexivity. Qed.
Lemma below_seven x : x < 7 -> x ∈ [0; 1; 2; 3; 4; 5; 6].
Proof. intros Hx. assert (x = 0 \/ x = 1 \/ x = 2 \/ x = 3 \/ x = 4 \/ x = 5 \/ x = 6) by lia. rewrite !elem_of_cons. tauto. Qed.
Lemma enc_seven r i : node 4 r i -> enc 2 r i < 7.
Proof.
  intros Hn. destruct (node_slot 4 r i Hn) as [Hr Hi]. change (NumRows 4) with 2 in *.
  assert (r = 0 \/ r = 1 \/ r = 2) as [->|[->| ->]] by lia; unfold enc; cbn [N.to_nat slots_below]; change (2 ^ (2 - 0)) with 4 in *; change (2 ^ (2 - 1)) with 2 in *; change (2 ^ (2 - 2)) with 1 in *; vm_compute slots_below; lia.
Qed.
Lemma ex_stored : exists f p f', synced ex_H f p /\ F_Modify ex_H f [] [1] = Ok (true, f') /\ ~ remembers p 1 /\
  has_nodes f p [1].
Proof.
  pose proof run81'_ok as E. unfold run81' in E. apply bind_ok in E as ([b1 f] & E1 & E). apply bind_ok in E as ([b2 p] & E2 & E). cbn [fst snd] in E.
  apply bind_ok in E as ([b3 g] & E3 & E). cbn [fst snd] in E. apply Ok_inv in E. 
  assert (b1 = true /\ b2 = true /\ b3 = true /\ f_n f = 4 /\ stores_all p [0; 1; 2; 3; 4; 5; 6] = true /\ F_GetLeaf f 1 = Ok 11) as (-> & -> & -> & En & Ef & El) by (split_and!; congruence).
  clear E. exists f, p, g.
  assert (Hk : keeps ex_H f p {[10; 12]}).
  { eapply keeps_eq; [by apply (keeps_start ex_H adds81')|]. apply (bool_decide_unpack _). by vm_compute. }
  split; [by eapply keeps_synced|]. split; [done|]. split.
  - destruct (C80_lem ex_H f p _ Hk) as (_ & _ & _ & Hm). rewrite (Hm 1 11 ltac:(by rewrite En) El). apply (bool_decide_unpack _). by vm_compute.
  - unfold has_nodes. rewrite En. intros R r i HR%NumRows_height Hc. change (NumRows 4) with 2 in HR. subst R.
    assert (Hnode : node 4 r i).
    { destruct Hc as [[Hc _]|Hc%needed_node]; done. }
    unfold stores_all in Ef. rewrite forallb_forall in Ef. specialize (Ef (enc 2 r i)). destruct (P_Read p (enc 2 r i)) as [[v|]| | | |]; [by exists v|..]; exfalso; (enough (false = true) by done); apply Ef, elem_of_list_In, below_seven, enc_seven, Hnode.
Qed.
