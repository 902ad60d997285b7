(** * PollardRemove: deletion in a Pollard (proofs) *)
From stdpp Require Import sorting.
From Verif Require Import Base StateModel ForestModel PollardModel PosSpec PosFacts PathFacts MerkleSpec ProofSpec TargetFacts ForestFacts RowFacts
  TransformFacts SpecFacts RemoveFacts ShapeFacts ForestInv AddFacts PollardRep PollardOps PollardAdd PollardFinal PosmapFacts EntrySpec.
From Coq Require Import ZifyBool ZifyNat ZifyN.
Ltac Zify.zify_post_hook ::= idtac.
Ltac dlia := zify; Z.div_mod_to_equations; lia.

(** ** Paths *)
Lemma ent_ext T L L' R r i : (forall x, L r x = L' r x) -> ent T L R r i = ent T L' R r i.
Proof. intros E. unfold ent. by rewrite !E. Qed.
Lemma ancs_ext T L L' R k r i : (forall r' x, (r < r')%nat -> L r' x = L' r' x) -> ancs T L R k r i = ancs T L' R k r i.
Proof.
  intros E. unfold ancs. apply list_fmap_ext. intros m x Hx. apply lookup_seq in Hx as [-> _]. apply ent_ext. intros y. apply E. lia.
Qed.

Section Swaps.
Context (n : N) (Hn : n <= 2 ^ 62).
Notation R := (NumRows n).
Notation T := (trees n).

Definition apath (L : lmap) (j : nat) (b : N) (q : path) : Prop :=
  exists k, q = ancs T L R k j b /\ (N.of_nat (k + j), b / 2 ^ N.of_nat k) ∈ T.

Lemma actt_cons j s l r x : actt j (s :: l) r x = actt j l r (swt j s.1 s.2 r x).
Proof.
  unfold actt. destruct (Nat.leb_spec r j) as [Hr|Hr].
  - rewrite swt_lift by done. by rewrite lift_lift.
  - by rewrite swt_above.
Qed.
Lemma actt_nil j r x : actt j [] r x = x.
Proof. unfold actt. destruct (r <=? j)%nat; [by rewrite lift_id|done]. Qed.

(** Every leaf comes, with its mark, from some leaf. *)
Definition moved (M : N -> bool) (g : nat -> N -> hash) (M' : N -> bool) (g' : nat -> N -> hash) : Prop :=
  forall y, y < n -> exists x, x < n /\ M' y = M x /\ g' 0%nat y = g 0%nat x.
Lemma moved_self M g : moved M g M g.
Proof. intros y Hy. by exists y. Qed.
Lemma moved_trans M g M1 g1 M2 g2 : moved M g M1 g1 -> moved M1 g1 M2 g2 -> moved M g M2 g2.
Proof. intros H1 H2 y Hy. destruct (H2 y Hy) as (x & Hx & -> & ->). by apply H1. Qed.
Lemma node_leaf x : node n (N.of_nat 0) x <-> x < n.
Proof. unfold node. change (2 ^ N.of_nat 0) with 1. lia. Qed.

Lemma sorted_NoDup' (l : list N) : StronglySorted N.lt l -> NoDup l.
Proof.
  clear. induction 1 as [|x l Hs IH Hf]; constructor; [|done]. intros Hx. rewrite Forall_forall in Hf. specialize (Hf x Hx). lia.
Qed.
(** Labels of the nodes: a leaf has label 1 if it is marked and 0 otherwise; the
    children of a node can only be stored if the label of the node is not 0. *)
Definition mw (M : N -> bool) (w : nat -> N -> hash) : Prop := forall x, w 0%nat x = if M x then 1 else 0.
Definition tw (L : lmap) (w : nat -> N -> hash) : Prop := forall r x, node n (N.of_nat (S r)) (x / 2) -> is_Some (L r x) -> 1 <= w (S r) (x / 2).
Lemma tw_swap j a b L w : node n (N.of_nat j) a -> node n (N.of_nat j) b -> tw L w -> tw (Lsw j a b L) (λ r x, w r (swt j a b r x)).
Proof.
  intros Ha Hb Hw r x Hx HL. destruct (decide (r < j)%nat) as [Hr|Hr].
  - rewrite (Lsw_lt n) in HL by done. destruct (swt_half j a b r x Hr) as [E _]. rewrite <- E. apply Hw; [|done]. rewrite E. by apply swt_node.
  - rewrite (Lsw_ge n) in HL by lia. rewrite swt_above by lia. by apply Hw.
Qed.

Definition all_marked (M : N -> bool) : Prop := forall x, x < n -> M x = true.
Lemma moved_marked M g M' g' : moved M g M' g' -> all_marked M -> all_marked M'.
Proof. intros Hm HM y Hy. destruct (Hm y Hy) as (x & Hx & -> & _). by apply HM. Qed.

Lemma P_do_swaps_ok j (l : list (N * N * bool)) : forall p L M g, p_n p = n -> rep p T L M -> agree p T L g ->
  (forall a b c, (a, b, c) ∈ l -> node n (N.of_nat j) a /\ node n (N.of_nat j) b /\ a <> b /\
     is_Some (L j a) /\ is_Some (L j (hp T j a)) /\ is_Some (L j b) /\ is_Some (L j (hp T j b))) ->
  exists p' L' M' g' qs, P_do_swaps p ((λ s, mk_collapse (enc R (N.of_nat j) s.1.1) (enc R (N.of_nat j) s.1.2) s.2) <$> l) = Ok (p', qs) /\
    Forall2 (apath L j) ((λ s, s.1.2) <$> filter (λ s, s.2 = false) l) qs /\
    p_n p' = n /\ rep p' T L' M' /\ agree p' T L' g' /\
    (forall r x, (j <= r)%nat -> L' r x = L r x) /\
    (forall r x, (r < j)%nat -> L' r (actt j l.*1 r x) = L r x) /\
    (forall x, M' (actt j l.*1 0 x) = M x) /\
    (forall r x, g' r (actt j l.*1 r x) = g r x) /\ moved M g M' g' /\ (forall x, x < n -> actt j l.*1 0 x < n) /\
    (forall w, mw M w -> tw L w -> exists w', (forall r x, w' r (actt j l.*1 r x) = w r x) /\ mw M' w' /\ tw L' w') /\
    (all_marked M -> pm_right n p g -> pm_right n p' g') /\
    (inj0 n g -> inj0 n g' /\ forall h x, x < n -> g 0%nat x = h ->
       (p_posmap p !! h = Some x -> j = 0%nat \/ is_Some (L 0%nat x) -> p_posmap p' !! h = Some (actt j l.*1 0 x)) /\
       ((0 < j)%nat -> L 0%nat x = None -> p_posmap p' !! h = p_posmap p !! h)).
Proof.
  induction l as [|[[a b] c] l IH]; intros p L M g Hpn HR Hg Hl.
  - exists p, L, M, g, []. split; [done|]. split; [constructor|]. do 4 (split; [done|]).
    split; [|split; [|split; [|split; [apply moved_self|split; [|split; [intros w Hm Ht; exists w; split; [|done]|split; [done|intros Hi; split; [done|]]]]]]]]; intros; cbn [fmap list_fmap]; by rewrite actt_nil.
  - destruct (Hl a b c ltac:(left)) as (Ha & Hb & Hab & H1 & H2 & H3 & H4).
    rewrite fmap_cons. cbn [P_do_swaps m_from m_to mk_collapse fst snd m_collapse].
    destruct (P_UpdatePositionMap_ok n Hn p L M j a b Hpn HR Ha Hb) as [m Em]. rewrite Em. cbn [bind].
    destruct (SwapSubTrees_ok n Hn (p_set_posmap p m) L M g j a b Hpn (rep_posmap _ _ _ _ m HR) Hg Ha Hb Hab H1 H2 H3 H4)
      as (h & k & E & Hk & HR1 & Hg1).
    rewrite E. cbn [bind fst snd].
    destruct (IH (p_set_heap (p_set_posmap p m) h) (Lsw j a b L) (Msw j a b M) _ Hpn HR1 Hg1)
      as (p' & L' & M' & g' & qs & E' & Hqs & Hpn' & HR' & Hg' & K1 & K2 & K3 & K4 & K5 & K6 & K7 & K8 & K9).
    { intros a' b' c' Hin. rewrite !(Lsw_ge n) by done. apply (Hl a' b' c'). by right. }
    rewrite E'. cbn [bind fst snd].
    exists p', L', M', g', (if c then qs else ancs T L R k j b :: qs). split; [done|]. split.
    { assert (Hqs' : Forall2 (apath L j) ((λ s : N * N * bool, s.1.2) <$> filter (λ s, s.2 = false) l) qs).
      { eapply Forall2_impl; [exact Hqs|]. intros x q (k' & -> & Hk'). exists k'. split; [|done]. apply ancs_ext.
        intros r' y Hr. rewrite (Lsw_ge n) by lia. done. }
      rewrite filter_cons. destruct c; cbn [snd].
      - rewrite decide_False by done. exact Hqs'.
      - rewrite decide_True by done. rewrite fmap_cons. constructor; [|done]. by exists k. }
    split; [done|]. split; [done|]. split; [done|]. split; [|split; [|split; [|split; [|split; [|split; [|split; [|split]]]]]]].
    + intros r x Hr. rewrite K1 by done. by rewrite (Lsw_ge n).
    + intros r x Hr. rewrite fmap_cons, actt_cons. rewrite K2 by done. rewrite (Lsw_lt n) by done. cbn [fst snd]. by rewrite swt_invol.
    + intros x. rewrite fmap_cons, actt_cons. rewrite K3. unfold Msw. cbn [fst snd]. by rewrite swt_invol.
    + intros r x. rewrite fmap_cons, actt_cons. rewrite K4. cbn [fst snd]. by rewrite swt_invol.
    + eapply moved_trans; [|exact K5]. intros y Hy. exists (swt j a b 0 y). split; [|done]. by apply node_leaf, swt_node, node_leaf.
    + intros x Hx. rewrite fmap_cons, actt_cons. apply K6. cbn [fst snd]. by apply node_leaf, swt_node, node_leaf.
    + intros w Hm Ht. destruct (K7 (λ r x, w r (swt j a b r x))) as (w' & W1 & W2 & W3); [intros x; apply Hm|by apply tw_swap|].
      exists w'. split; [|done]. intros r x. rewrite fmap_cons, actt_cons, W1. cbn [fst snd]. by rewrite swt_invol.
    + intros HM Hpm. apply K8; [intros x Hx; apply HM; by apply node_leaf, swt_node, node_leaf|].
      exact (P_UpdatePositionMap_right n Hn p L M g j a b m Hpn HR Hg HM Hpm Ha Hb Hab Em).
    + intros Hi. assert (Hi1 : inj0 n (λ r x, g r (swt j a b r x))).
      { intros x y Hx Hy Exy. apply Hi in Exy; [|by apply node_leaf, swt_node, node_leaf..]. by rewrite <- (swt_invol j a b 0 x), Exy, swt_invol. }
      destruct (K9 Hi1) as [Hi' K9']. split; [done|]. intros h0 x Hx Eh.
      assert (Hx' : swt j a b 0 x < n) by (by apply node_leaf, swt_node, node_leaf).
      destruct (K9' h0 (swt j a b 0 x) Hx' ltac:(cbn beta; by rewrite swt_invol)) as [K9a K9b]. cbn [p_set_heap p_set_posmap p_posmap] in K9a, K9b.
      split.
      * intros He Hs. rewrite fmap_cons, actt_cons. cbn [fst snd]. apply K9a.
        -- rewrite (P_UpdatePositionMap_entry n Hn p L M g j a b m h0 x Hpn HR Hg Hi ltac:(done) Ha Hb Hab Em).
           destruct (L 0%nat x) as [l0|] eqn:El; [done|]. destruct Hs as [->|[? Hs]]; [|done].
           f_equal. symmetry. rewrite swt_lift by done. unfold lift. change (2 ^ N.of_nat (0 - 0)) with 1. rewrite N.div_1_r, N.mod_1_r, N.mul_1_r, N.add_0_r.
           apply sw_ne; intros ->; [rewrite El in H1; by destruct H1|rewrite El in H3; by destruct H3].
        -- destruct Hs as [->|Hs]; [by left|]. destruct j as [|j]; [by left|right]. rewrite (Lsw_lt n) by lia. by rewrite swt_invol.
      * intros Hj HLx. rewrite K9b; [|done|rewrite (Lsw_lt n) by lia; by rewrite swt_invol].
        exact (P_UpdatePositionMap_unstored n Hn p L M g j a b m h0 x Hpn HR Hg Hi Hx Eh HLx Ha Hb Em).
Qed.
End Swaps.

Section Rehash.
Context (H : hash -> hash -> hash).
Context (n : N) (Hn : n <= 2 ^ 62) (Li : lmap).
Notation R := (NumRows n).
Notation T := (trees n).

Definition dpath (r : nat) (d : N) (q : path) : Prop :=
  exists k, q = ent T Li R r d :: ancs T Li R k r d /\ (N.of_nat (k + r), d / 2 ^ N.of_nat k) ∈ T.

Lemma root_above k r d : (N.of_nat (k + r), d / 2 ^ N.of_nat k) ∈ T -> node n (N.of_nat r) d /\ (k <> O <-> node n (N.of_nat (S r)) (d / 2)).
Proof.
  intros Hk.
  assert (Hu : under (N.of_nat (k + r), d / 2 ^ N.of_nat k) r d).
  { split; cbn [fst snd]; [lia|]. do 2 f_equal. lia. }
  split; [apply trees_under; by eexists|]. rewrite <- trees_under. split.
  - intros Hk0. exists (N.of_nat (k + r), d / 2 ^ N.of_nat k). split; [exact Hk|].
    apply (proj1 (under_up (N.of_nat (k + r), d / 2 ^ N.of_nat k) r d ltac:(cbn [fst]; lia))). done.
  - intros Hd ->. change (2 ^ N.of_nat 0) with 1 in Hk. rewrite N.div_1_r in Hk. by apply (kid_not_root T r d (trees_disj n) Hd).
Qed.

Lemma P_rehash_ok r D : forall p L M g A QD QA, p_n p = n -> rep p T L M -> agree p T L g ->
  Forall2 (dpath (S r)) D QD -> Forall2 (dpath (S (S r))) A QA ->
  (forall r' i, (S r <= r')%nat -> L r' i = Li r' i) ->
  (forall d, d ∈ D -> is_Some (L (S r) d) /\ is_Some (L (S r) (hp T (S r) d)) /\
     ((is_Some (L r (2 * d)) /\ is_Some (L r (2 * d + 1))) \/ g (S r) d = H (g r (2 * d)) (g r (2 * d + 1)))) ->
  exists p' L' g' A' QA', P_rehash_dirt H p n QD QA = Ok (p', QA') /\ Forall2 (dpath (S (S r))) A' QA' /\
    p_n p' = n /\ rep p' T L' M /\ agree p' T L' g' /\
    (forall r' i, r' <> r -> L' r' i = L r' i) /\
    (forall i, kept L M r i = true -> L' r i = L r i) /\
    (forall i, i / 2 ∉ D -> L' r i = L r i) /\
    (forall r' i, (r' <> S r \/ i ∉ D) -> g' r' i = g r' i) /\
    (forall d, d ∈ D -> g' (S r) d = H (g r (2 * d)) (g r (2 * d + 1))) /\
    (forall x, x ∈ A -> x ∈ A') /\
    (forall x, x ∈ A' -> x ∈ A \/ exists d, d ∈ D /\ x = d / 2 /\ node n (N.of_nat (S (S r))) x) /\
    (forall d, d ∈ D -> node n (N.of_nat (S (S r))) (d / 2) -> d / 2 ∈ A') /\
    (forall r' i l, L' r' i = Some l -> L r' i = Some l) /\
    (forall i, i / 2 ∈ D -> is_Some (L r (2 * (i / 2))) -> is_Some (L r (2 * (i / 2) + 1)) -> is_Some (L' r i) -> kept L M r i = true).
Proof.
  induction D as [|d D IH]; intros p L M g A QD QA Hpn HR Hg HQD HQA HLi HD.
  - apply Forall2_nil_inv_l in HQD as ->. exists p, L, g, A, QA. split; [done|]. split; [done|]. do 7 (split; [done|]).
    split; [by intros ? ?%elem_of_nil|]. split; [done|]. split; [by left|]. split; [by intros ? ?%elem_of_nil|]. split; [done|]. by intros ? ?%elem_of_nil.
  - apply Forall2_cons_inv_l in HQD as (q & QD' & (k & -> & Hk) & HQD & ->).
    destruct (HD d ltac:(left)) as (Hs1 & Hs2 & Hor).
    destruct (root_above k (S r) d Hk) as [Hdn Hkn].
    assert (HdT : inT T (S r) d) by (by apply trees_under).
    assert (Eent : ent T Li R (S r) d = ent T L R (S r) d) by (apply ent_ext; intros x; symmetry; by apply HLi).
    cbn [P_rehash_dirt].
    assert (Hre : exists p1 L1 g1, P_ReHash H p (ent T Li R (S r) d) = Ok p1 /\ p_n p1 = n /\ rep p1 T L1 M /\ agree p1 T L1 g1 /\
      (forall r' i, (r' = r /\ i / 2 = d -> False) -> L1 r' i = L r' i) /\
      (forall i, kept L M r i = true -> L1 r i = L r i) /\
      (forall r' i, (r' = S r /\ i = d -> False) -> g1 r' i = g r' i) /\ g1 (S r) d = H (g r (2 * d)) (g r (2 * d + 1)) /\
      (forall r' i l, L1 r' i = Some l -> L r' i = Some l) /\
      (is_Some (L r (2 * d)) -> is_Some (L r (2 * d + 1)) -> forall i, i / 2 = d -> is_Some (L1 r i) -> kept L M r i = true)).
    { rewrite Eent.
      destruct (L r (2 * d)) as [a|] eqn:Ea; [destruct (L r (2 * d + 1)) as [b|] eqn:Eb|].
      - destruct (ReHash_both H p T L M g R r d HR Hg HdT Hs1 Hs2) as (h & E & HR1 & Hg1); [by eexists|by eexists|].
        eexists _, _, _. split; [exact E|]. split; [done|]. split; [exact HR1|]. split; [exact Hg1|]. split; [|split; [|split; [|split; [|split]]]].
        + intros r' i Hne. unfold Lpr. destruct (Nat.eqb_spec r' r) as [->|]; [|done]. destruct (N.eqb_spec (i / 2) d); [|done]. by destruct Hne.
        + intros i Hi. destruct (decide (i / 2 = d)) as [E'|E']; [rewrite Lpr_at by done; by rewrite Hi|by rewrite Lpr_far].
        + intros r' i Hne. by apply gset_ne.
        + apply gset_eq.
        + intros r' i l. apply Lpr_sub.
        + intros _ _ i Hi. rewrite Lpr_at by done. destruct (kept L M r i); [done|]. by intros [? ?].
      - destruct Hor as [[_ [? ?]]|Hor]; [done|]. exists p, L, g. rewrite (ReHash_skip H p T L M R r d HR HdT Hs2) by (by right). split_and!; try done. by intros _ [? ?].
      - destruct Hor as [[[? ?] _]|Hor]; [done|]. exists p, L, g. rewrite (ReHash_skip H p T L M R r d HR HdT Hs2) by (by left). split_and!; try done. by intros [? ?]. }
    destruct Hre as (p1 & L1 & g1 & -> & Hpn1 & HR1 & Hg1 & HL1 & HK1 & Hg1n & Hg1d & HS1 & HK1'). cbn [bind].
    change (pn_pos (ent T Li R (S r) d)) with (enc R (N.of_nat (S r)) d).
    rewrite Parent_ok by (done || by apply node_slot). cbn [bind].
    replace (N.of_nat (S r) + 1) with (N.of_nat (S (S r))) by lia.
    assert (Hpush : exists A1 QA1, match ancs T Li R k (S r) d with [] => QA | _ => QA ++ [ancs T Li R k (S r) d] end = QA1 /\
       Forall2 (dpath (S (S r))) A1 QA1 /\ (forall x, x ∈ A -> x ∈ A1) /\
       (forall x, x ∈ A1 -> x ∈ A \/ (x = d / 2 /\ node n (N.of_nat (S (S r))) x)) /\
       (node n (N.of_nat (S (S r))) (d / 2) -> d / 2 ∈ A1)).
    { destruct k as [|k].
      - exists A, QA. split; [done|]. split; [done|]. split; [done|]. split; [by left|]. intros Hx%Hkn. done.
      - rewrite ancs_cons. exists (A ++ [d / 2]), (QA ++ [ent T Li R (S (S r)) (d / 2) :: ancs T Li R k (S (S r)) (d / 2)]).
        split; [done|]. split.
        { apply Forall2_app; [done|]. constructor; [|constructor]. exists k. split; [done|].
          rewrite pow_nat_S, <- N.div_div in Hk by (pose proof (pow_pos (N.of_nat k)); lia).
          by replace (k + S (S r))%nat with (S k + S r)%nat by lia. }
        split; [intros x Hx; apply elem_of_app; by left|]. split.
        + intros x [Hx|Hx]%elem_of_app; [by left|]. apply elem_of_list_singleton in Hx as ->. right. split; [done|]. by apply Hkn.
        + intros _. apply elem_of_app. right. by left. }
    assert (Hacc : exists A1 QA1,
       (match last QA with
        | Some (y :: _) => Ok (if pn_pos y =? enc R (N.of_nat (S (S r))) (d / 2) then QA
            else match ancs T Li R k (S r) d with [] => QA | _ => QA ++ [ancs T Li R k (S r) d] end)
        | Some [] => UB
        | None => Ok (match ancs T Li R k (S r) d with [] => QA | _ => QA ++ [ancs T Li R k (S r) d] end)
        end) = Ok QA1 /\
       Forall2 (dpath (S (S r))) A1 QA1 /\ (forall x, x ∈ A -> x ∈ A1) /\
       (forall x, x ∈ A1 -> x ∈ A \/ (x = d / 2 /\ node n (N.of_nat (S (S r))) x)) /\
       (node n (N.of_nat (S (S r))) (d / 2) -> d / 2 ∈ A1)).
    { destruct Hpush as (A1 & QA1 & -> & HA1). destruct (last QA) as [y|] eqn:El; [|by exists A1, QA1].
      rewrite last_lookup in El. destruct (Forall2_lookup_r _ _ _ _ _ HQA El) as (x & Ex & (kx & -> & Hkx)).
      change (pn_pos (ent T Li R (S (S r)) x)) with (enc R (N.of_nat (S (S r))) x).
      destruct (N.eqb_spec (enc R (N.of_nat (S (S r))) x) (enc R (N.of_nat (S (S r))) (d / 2))) as [E%enc_inj1|E]; [|by exists A1, QA1].
      exists A, QA. split; [done|]. split; [done|]. split; [done|]. split; [by left|]. intros _. rewrite <- E. by eapply elem_of_list_lookup_2. }
    destruct Hacc as (A1 & QA1 & EA & HQA1 & HA1 & HA2 & HA3).
    assert (EA' : (let* acc' := (match last QA with
        | Some (y :: _) => Ok (if pn_pos y =? enc R (N.of_nat (S (S r))) (d / 2) then QA
            else match ancs T Li R k (S r) d with [] => QA | _ => QA ++ [ancs T Li R k (S r) d] end)
        | Some [] => UB
        | None => Ok (match ancs T Li R k (S r) d with [] => QA | _ => QA ++ [ancs T Li R k (S r) d] end)
        end) in P_rehash_dirt H p1 n QD' acc') = P_rehash_dirt H p1 n QD' QA1) by (rewrite EA; done).
    clear EA Hpush.
    destruct (IH p1 L1 M g1 A1 QD' QA1 Hpn1 HR1 Hg1 HQD HQA1) as (p' & L' & g' & A' & QA' & E & HQA' & Hpn' & HR' & Hg' & K1 & K2 & K2' & K3 & K4 & K5 & K6 & K7 & K8 & K9).
    { intros r' i Hr. rewrite HL1 by lia. by apply HLi. }
    { intros d' Hd'. destruct (HD d' ltac:(by right)) as (G1 & G2 & G3). rewrite !HL1 by lia. split; [done|]. split; [done|].
      destruct (decide (d' = d)) as [->|Hne].
      - right. rewrite Hg1d. f_equal; symmetry; apply Hg1n; lia.
      - destruct (half_2 d') as [E1 E2]. rewrite !HL1 by (rewrite ?E1, ?E2; intros [_ ?]; done).
        rewrite !Hg1n by (intros [? ?]; done || lia). done. }
    exists p', L', g', A', QA'. split; [etransitivity; [exact EA'|exact E]|]. split; [done|]. split; [done|]. split; [done|]. split; [done|].
    split; [|split; [|split; [|split; [|split; [|split; [|split; [|split]]]]]]].
    + intros r' i Hr. rewrite K1 by done. apply HL1. intros [? _]. done.
    + intros i Hi. rewrite K2; [by apply HK1|]. rewrite <- Hi. unfold kept. destruct r as [|r0]; [done|]. rewrite !HL1 by lia. done.
    + intros i Hi. rewrite not_elem_of_cons in Hi. rewrite K2' by tauto. apply HL1. intros [_ ?]. tauto.
    + intros r' i Hri. rewrite not_elem_of_cons in Hri. rewrite K3 by tauto. apply Hg1n. intros [-> ->]. destruct Hri as [?|[? _]]; done.
    + intros i Hi. destruct (decide (i ∈ D)) as [Hi'|Hi'].
      * rewrite K4 by done. f_equal; apply Hg1n; lia.
      * apply elem_of_cons in Hi as [->|]; [|done]. rewrite K3 by (by right). done.
    + auto.
    + intros x [Hx|(d' & Hd' & Hx)]%K6.
      * apply HA2 in Hx as [Hx|[Hx1 Hx2]]; [by left|]. right. exists d. split; [by left|]. done.
      * right. exists d'. split; [by right|done].
    + intros x [->|Hx]%elem_of_cons Hnx; [by apply K5, HA3|by apply K7].
    + split; [intros r' i l Hl; by apply HS1, K8|]. intros i Hi Hl Hr Hs. assert (Hs1' : is_Some (L1 r i)) by (destruct Hs as [l' Hs]; exists l'; by apply K8).
      destruct (decide (i / 2 = d)) as [E1|E1]; [rewrite E1 in *; by apply HK1'|].
      apply elem_of_cons in Hi as [?|Hi]; [done|]. destruct (half_2 (i / 2)) as [D1 D2].
      rewrite <- (K9 i Hi); [|rewrite HL1; [done|]; rewrite D1; by intros [_ ?]|rewrite HL1; [done|]; rewrite D2; by intros [_ ?]|done].
      unfold kept. destruct r as [|r0]; [done|]. rewrite !HL1 by lia. done.
Qed.
End Rehash.

(** ** Which nodes have to be present *)
Definition stocked (n : N) (ts : list N) (L : lmap) : Prop :=
  forall r i, computed n ts (N.of_nat r) i \/ needed n ts (N.of_nat r) i -> is_Some (L r i).
Definition ready (n : N) (ts : list N) (L : lmap) (M : N -> bool) : Prop :=
  stocked n ts L /\ forall t, t ∈ ts -> M t = true.

Section Comp.
Context (n : N) (ts : list N).
Notation T := (trees n).
Lemma computed_kid r d : computed n ts (N.of_nat (S r)) d ->
  exists c, computed n ts (N.of_nat r) c /\ c / 2 = d.
Proof.
  intros [Hd (t & Ht & Et)]. exists (t / 2 ^ N.of_nat r).
  assert (E : t / 2 ^ N.of_nat r / 2 = d).
  { rewrite <- Et. replace (N.of_nat (S r)) with (N.of_nat r + 1) by lia. symmetry. apply div_pow_S. }
  split; [|done]. split; [|eauto]. apply trees_under, inT_kid. rewrite E. by apply trees_under.
Qed.
Lemma computed_up r d : computed n ts (N.of_nat r) d -> node n (N.of_nat (S r)) (d / 2) -> computed n ts (N.of_nat (S r)) (d / 2).
Proof.
  intros [Hd (t & Ht & <-)] Hp. split; [done|]. exists t. split; [done|].
  replace (N.of_nat (S r)) with (N.of_nat r + 1) by lia. apply div_pow_S.
Qed.
Lemma computed_sib r i : computed n ts (N.of_nat r) i -> (N.of_nat r, i) ∉ T ->
  computed n ts (N.of_nat r) (sib i) \/ needed n ts (N.of_nat r) (sib i).
Proof.
  intros Hc Hnr. destruct (decide (sib i ∈ (λ t, t / 2 ^ N.of_nat r) <$> ts)) as [Hin|Hin].
  - left. apply elem_of_list_fmap in Hin as (t & E & Ht). split; [|eauto]. apply trees_under, inT_sib, trees_under. apply trees_up; [by destruct Hc|done].
  - right. split; [by rewrite sib_sib|]. rewrite sib_sib. split; [by rewrite <- trees_elem|].
    intros [_ (t & Ht & E)]. apply Hin. apply elem_of_list_fmap. eauto.
Qed.

Context (L : lmap) (Hready : stocked n ts L) (Hroot : forall r i, (N.of_nat r, i) ∈ T -> is_Some (L r i)).
Definition pres (r : nat) (i : N) : Prop := is_Some (L r i) /\ is_Some (L r (hp T r i)).
Lemma pres_comp r i : computed n ts (N.of_nat r) i -> pres r i.
Proof.
  intros Hc. split; [apply Hready; by left|]. unfold hp. destruct (decide _) as [?|Hnr]; [by apply Hroot|].
  apply Hready. by apply computed_sib.
Qed.
Lemma pres_kids r d : computed n ts (N.of_nat (S r)) d -> is_Some (L r (2 * d)) /\ is_Some (L r (2 * d + 1)).
Proof.
  intros Hd. destruct (computed_kid _ _ Hd) as (c & Hc & E). destruct (pres_comp r c Hc) as [H1 H2].
  rewrite hp_kid in H2; [|apply trees_disj|rewrite E; apply trees_under; by destruct Hd].
  destruct (two_half c) as [Ec|Ec]; rewrite E in Ec; rewrite Ec in H1, H2; destruct (sib_2 d) as [S1 S2];
    [rewrite S1 in H2|rewrite S2 in H2]; done.
Qed.
Lemma pres_kid r d x : computed n ts (N.of_nat (S r)) d -> x / 2 = d -> pres r x.
Proof.
  intros Hd <-. unfold pres. rewrite hp_kid; [|apply trees_disj|apply trees_under; by destruct Hd].
  destruct (pres_kids r _ Hd) as [H1 H2]. destruct (sib_2 (x / 2)) as [S1 S2]. destruct (two_half x) as [E|E]; rewrite E in *.
  - rewrite (proj1 (half_2 _)) in *. by rewrite S1.
  - rewrite (proj2 (half_2 _)) in *. by rewrite S2.
Qed.
Lemma pres_sib r i : computed n ts (N.of_nat r) i -> node n (N.of_nat (S r)) (i / 2) -> pres r (sib i).
Proof. intros Hc Hp. apply (pres_kid r (i / 2)); [by apply computed_up|apply sib_half]. Qed.
Lemma pres_root r i : (N.of_nat r, i) ∈ T -> pres r i.
Proof. intros Hr. unfold pres. rewrite hp_root by done. split; by apply Hroot. Qed.

End Comp.

Section Ready.
Context (n : N) (Hn : n <= 2 ^ 62) (ts : list N) (L0 : list cell) (HL0 : size L0 = n) (Hts : dead 0 L0 = ts).
Notation R := (NumRows n).
Notation T := (trees n).
Notation Lr := (rowat L0).
Notation Yr := (Y n L0).

Lemma dead_computed j : forall i, Lr j !! i = Some None -> computed n ts (N.of_nat j) (N.of_nat i).
Proof.
  induction j as [|j IH]; intros i Hi.
  - assert (Hi' : N.of_nat i ∈ ts).
    { rewrite <- Hts. apply dead_elem. split; [lia|]. by replace (N.to_nat (N.of_nat i - 0)) with i by lia. }
    split.
    + apply (row_node n Hn L0 HL0). apply lookup_lt_Some in Hi. unfold size. lia.
    + exists (N.of_nat i). split; [done|]. change (2 ^ N.of_nat 0) with 1. apply N.div_1_r.
  - assert (Hnode : node n (N.of_nat (S j)) (N.of_nat i)).
    { apply (row_node n Hn L0 HL0). apply lookup_lt_Some in Hi. unfold size. lia. }
    assert (Hup : forall c, Lr j !! N.to_nat c = Some None -> c / 2 = N.of_nat i -> computed n ts (N.of_nat (S j)) (N.of_nat i)).
    { intros c Hc Ec. apply IH in Hc as [_ (t & Ht & Et)]. rewrite N2Nat.id in Et. split; [done|]. exists t. split; [done|].
      rewrite <- Ec, <- Et. replace (N.of_nat (S j)) with (N.of_nat j + 1) by lia. apply div_pow_S. }
    rewrite rowat_S in Hi. destruct (next_pair _ _ _ Hi) as [p Hp]. pose proof (next_spec _ _ _ Hp) as Hs. unfold chunk in *. rewrite Hi in Hs.
    destruct Hs as [->|(t & Hh & _)].
    + apply pair_up_lookup in Hp as [Hp _]. apply (Hup (2 * N.of_nat i)); [|dlia].
      by replace (N.to_nat (2 * N.of_nat i)) with (2 * i)%nat by lia.
    + destruct (hole_dead _ _ _ _ Hp Hh) as (Hd & _ & Eh). by apply (Hup t).
Qed.

Context (L : lmap) (Hready : stocked n ts L) (Hroot : forall r i, (N.of_nat r, i) ∈ T -> is_Some (L r i)).
(** The ends of the swaps. *)
Lemma rsing_comp j t : t ∈ rsing (Lr j) -> computed n ts (N.of_nat j) t /\ node n (N.of_nat (S j)) (t / 2).
Proof.
  intros Ht. split.
  - apply rsing_dead, dead_computed in Ht. by rewrite N2Nat.id in Ht.
  - apply (row_node n Hn L0 HL0). rewrite rowat_S, next_row_size, <- size_rps. by apply rsing_half.
Qed.
Lemma ri_root j i : ri (Lr j) = Some i -> (N.of_nat j, i) ∈ T.
Proof.
  intros Er. pose proof (ri_half _ _ Er) as E1. pose proof (ri_even _ _ Er) as E2. apply trees_elem. split.
  - apply (row_node n Hn L0 HL0). rewrite (pair_up_left (Lr j)). unfold ri in Er. unfold rps in *.
    destruct (pair_up (Lr j)).2; [lia|done].
  - replace (N.of_nat j + 1) with (N.of_nat (S j)) by lia. intros Hx%(row_node n Hn L0 HL0). rewrite rowat_S, next_row_size, <- size_rps in Hx. lia.
Qed.
Lemma swl_from tl root a b : (a, b) ∈ swl false tl root -> (exists t, t ∈ tl /\ a = sib t) \/ root = Some a.
Proof.
  induction tl as [|t|t t' tl IH] using pair_up_ind; [by intros ?%elem_of_nil|..].
  - cbn [swl]. destruct root; [|by intros ?%elem_of_nil]. rewrite elem_of_list_singleton. intros [= -> ->]. by right.
  - change (swl false (t :: t' :: tl) root) with ((sib t', t) :: swl false tl root). intros [[= -> ->]|Hx]%elem_of_cons.
    + left. exists t'. split; [|done]. right. by left.
    + destruct (IH Hx) as [(u & Hu & ->)|?]; [|by right]. left. exists u. split; [|done]. by do 2 right.
Qed.
Lemma rsws_pres j a b : (a, b) ∈ rsws (Lr j) -> pres n L j a /\ pres n L j b.
Proof.
  intros Hab. split.
  - apply swl_from in Hab as [(t & Ht & ->)|Hr].
    + destruct (rsing_comp j t Ht). by eapply (pres_sib n ts).
    + apply (pres_root n L Hroot). by apply ri_root.
  - apply newdirt_rsing in Hab. apply (pres_comp n ts L Hready Hroot). by apply rsing_comp.
Qed.
Lemma colfrom_pres j f : colfrom (Lr j) = Some f -> pres n L j f.
Proof.
  intros Hf. unfold colfrom in Hf. destruct (Nat.even _); [apply (pres_root n L Hroot); by apply ri_root|].
  destruct (ri (Lr j)); [done|]. destruct (last (rsing (Lr j))) as [t|] eqn:El; [|done]. cbn in Hf. apply (inj Some) in Hf as <-.
  destruct (rsing_comp j t) as [H1 H2]; [by apply last_Some_elem_of|]. by eapply (pres_sib n ts).
Qed.
Lemma Y_comp j : (j <= N.to_nat R)%nat -> dead 0 (Lr j) <> [] -> computed n ts (N.of_nat j) (Yr j).
Proof.
  intros Hj Hd. pose proof (tailpos_dead (N.to_nat R - j) (Lr j) (rows_bound62 n L0 j HL0 Hj) Hd) as Hy.
  apply dead_computed in Hy. by rewrite N2Nat.id in Hy.
Qed.
Lemma colpair_pres j a b : (j < N.to_nat R)%nat -> dead 0 (Lr j) <> [] -> (a, b) ∈ colpair n L0 j -> pres n L j a /\ pres n L j b.
Proof.
  intros Hj Hdj Hs. unfold colpair in Hs. destruct (colfrom (Lr j)) as [f|] eqn:Ef; [|by apply elem_of_nil in Hs].
  destruct (N.eqb_spec f (2 * Yr (S j))) as [E|E]; [by apply elem_of_nil in Hs|]. apply elem_of_list_singleton in Hs as [= -> ->].
  split; [by apply colfrom_pres|].
  assert (Hd : dead 0 (Lr (S j)) <> []).
  { intros Ed. destruct (tail_end (Lr j) Hdj Ed _ eq_refl) as (Hc & _). congruence. }
  apply (pres_kid n ts L Hready Hroot j (Yr (S j))); [apply Y_comp; [lia|done]|]. apply half_2.
Qed.
End Ready.

(** ** All rows *)
Section Rows.
Context (H : hash -> hash -> hash).
Context (n : N) (Hn : n <= 2 ^ 62) (L0 : list cell) (HL0 : size L0 = n) (Hnn : alive L0 < n).
Context (h : nat) (HhR : (h <= N.to_nat (NumRows n))%nat) (Hdead : forall i, (i < h)%nat -> dead 0 (rowat L0 i) <> [])
  (Hend : h = N.to_nat (NumRows n) \/ dead 0 (rowat L0 h) = []).
Context (ts : list N) (Hts : dead 0 L0 = ts).
Context (Li : lmap) (Hready : stocked n ts Li) (Hroot : forall r i, (N.of_nat r, i) ∈ trees n -> is_Some (Li r i)).
Notation R := (NumRows n).
Notation T := (trees n).
Notation Lr := (rowat L0).
Notation Yr := (Y n L0).
Notation swaps := (fin n L0 <$> seq 0 h).

Lemma dead_above62 j : (h <= j)%nat -> (j < N.to_nat R)%nat -> dead 0 (Lr j) = [].
Proof.
  intros Hhj Hj. destruct Hend as [->|E]; [lia|]. replace j with (j - h + h)%nat by lia.
  assert (Hk : forall k, dead 0 (Lr (k + h)) = []).
  { induction k as [|k IH]; [done|]. cbn [Nat.add]. rewrite rowat_S. by destruct (full_row _ IH) as (_ & _ & Hx & _). }
  apply Hk.
Qed.
Lemma sigma_pair62 j x : act (rsws (Lr j) ++ colpair n L0 j) x = sigma (Lr j) (Yr (S j)) x.
Proof.
  rewrite act_app. unfold colpair, sigma. destruct (colfrom (Lr j)) as [f|]; [|done].
  destruct (N.eqb_spec f (2 * Yr (S j))) as [<-|]; [by rewrite sw_same|done].
Qed.
Lemma sigma_Y j : (j < N.to_nat R)%nat -> sigma (Lr j) (Yr (S j)) (Yr j) = 2 * Yr (S j) + bit (Lr j).
Proof.
  intros Hj. unfold Y. replace (N.to_nat R - j)%nat with (S (N.to_nat R - S j)) by lia. rewrite rowat_S. apply sigma_tail.
  replace (S (N.to_nat R - S j)) with (N.to_nat R - j)%nat by lia. apply (rows_bound62 n L0 j HL0). lia.
Qed.
Lemma Forall2_map_in {A B C} (P : A -> B -> Prop) (Q : C -> B -> Prop) (f : A -> C) l k : Forall2 P l k ->
  (forall x y, x ∈ l -> P x y -> Q (f x) y) -> Forall2 Q (f <$> l) k.
Proof.
  intros HF. induction HF as [|x y l k Hx HF IH]; intros HQ; [constructor|]. rewrite fmap_cons. constructor.
  - apply HQ; [left|done].
  - apply IH. intros x' y' Hx' HP. apply HQ; [by right|done].
Qed.
Lemma apath_ext (L : lmap) j b q : (forall r i, (j < r)%nat -> L r i = Li r i) -> apath n L j b q -> apath n Li j b q.
Proof. intros HL (k & -> & Hk). exists k. split; [|done]. apply ancs_ext. intros r i Hr. apply HL. lia. Qed.
Lemma apath_dpath j b q : node n (N.of_nat (S j)) (b / 2) -> apath n Li j b q -> dpath n Li (S j) (b / 2) q.
Proof.
  intros Hb (k & -> & Hk). destruct (root_above H n Hn k j b Hk) as [_ [_ Hk0]]. specialize (Hk0 Hb). destruct k as [|k]; [done|].
  exists k. split; [apply ancs_cons|]. replace (k + S j)%nat with (S k + j)%nat by lia. rewrite pow_nat_S, <- N.div_div in Hk by (pose proof (pow_pos (N.of_nat k)); lia).
  exact Hk.
Qed.

Lemma P_swaps_row_ok j p L M g D QD : (j < N.to_nat R)%nat -> p_n p = n -> rep p T L M -> agree p T L g ->
  (forall r i, (j <= r)%nat -> L r i = Li r i) -> Forall2 (dpath n Li (S j)) D QD ->
  exists p1 L1 M1 g1 QD1, (if N.of_nat j <? size swaps then
           let* ss := vec_at swaps (N.of_nat j) in
           let* r := P_do_swaps p ss in
           Ok (r.1, QD ++ r.2)
         else Ok (p, QD)) = Ok (p1, QD1) /\ Forall2 (dpath n Li (S j)) (newdirt L0 j D) QD1 /\
    p_n p1 = n /\ rep p1 T L1 M1 /\ agree p1 T L1 g1 /\
    (forall r i, (j <= r)%nat -> L1 r i = Li r i) /\
    (forall r i, (r < j)%nat -> L1 r (lift (N.of_nat (j - r)) (sigma (Lr j) (Yr (S j))) i) = L r i) /\
    (forall i, M1 (lift (N.of_nat j) (sigma (Lr j) (Yr (S j))) i) = M i) /\
    (forall r i, (r <= j)%nat -> g1 r (lift (N.of_nat (j - r)) (sigma (Lr j) (Yr (S j))) i) = g r i) /\
    (forall r i, (j < r)%nat -> g1 r i = g r i) /\ moved n M g M1 g1 /\
    (forall x, x < n -> lift (N.of_nat j) (sigma (Lr j) (Yr (S j))) x < n) /\
    (forall w, mw M w -> tw n L w -> exists w1, (forall r i, (r <= j)%nat -> w1 r (lift (N.of_nat (j - r)) (sigma (Lr j) (Yr (S j))) i) = w r i) /\
      (forall r i, (j < r)%nat -> w1 r i = w r i) /\ mw M1 w1 /\ tw n L1 w1) /\
    (all_marked n M -> pm_right n p g -> pm_right n p1 g1) /\
    (inj0 n g -> inj0 n g1 /\ forall h x, x < n -> g 0%nat x = h ->
       (p_posmap p !! h = Some x -> j = 0%nat \/ is_Some (L 0%nat x) -> p_posmap p1 !! h = Some (lift (N.of_nat j) (sigma (Lr j) (Yr (S j))) x)) /\
       ((0 < j)%nat -> L 0%nat x = None -> p_posmap p1 !! h = p_posmap p !! h)).
Proof.
  intros Hj Hpn HR Hg Hup HQ. unfold size at 1. rewrite fmap_length, seq_length.
  destruct (N.ltb_spec (N.of_nat j) (N.of_nat h)) as [Hjh|Hjh].
  - assert (Hva : vec_at swaps (N.of_nat j) = Ok (fin n L0 j)).
    { unfold vec_at. rewrite Nat2N.id, list_lookup_fmap, lookup_seq_lt by lia. done. }
    rewrite Hva. cbn [bind].
    remember (((λ s : N * N, (s.1, s.2, false)) <$> rsws (Lr j)) ++ ((λ s : N * N, (s.1, s.2, true)) <$> colpair n L0 j)) as l eqn:El.
    assert (Ef : fin n L0 j = (λ s : N * N * bool, mk_collapse (enc R (N.of_nat j) s.1.1) (enc R (N.of_nat j) s.1.2) s.2) <$> l).
    { rewrite El, fmap_app, <- !list_fmap_compose. reflexivity. }
    assert (E1 : l.*1 = rsws (Lr j) ++ colpair n L0 j).
    { rewrite El, fmap_app, <- !list_fmap_compose. f_equal; (etransitivity; [|apply list_fmap_id]); apply list_fmap_ext; by intros ? [??]. }
    assert (E2 : (λ s : N * N * bool, s.1.2) <$> filter (λ s, s.2 = false) l = snd <$> rsws (Lr j)).
    { rewrite El, filter_app. assert (Ec : filter (λ s : N * N * bool, s.2 = false) ((λ s : N * N, (s.1, s.2, true)) <$> colpair n L0 j) = []).
      { generalize (colpair n L0 j). intros cl. induction cl as [|c cl IH]; [done|]. rewrite fmap_cons, filter_cons_False; [done|]. by cbn. }
      rewrite Ec, app_nil_r. generalize (rsws (Lr j)). intros cl. induction cl as [|c cl IH]; [done|].
      rewrite !fmap_cons, filter_cons_True by done. rewrite fmap_cons, IH. done. }
    assert (Hl : forall a b c, (a, b, c) ∈ l -> node n (N.of_nat j) a /\ node n (N.of_nat j) b /\ a <> b /\
       is_Some (L j a) /\ is_Some (L j (hp T j a)) /\ is_Some (L j b) /\ is_Some (L j (hp T j b))).
    { intros a b c Hin. rewrite !Hup by lia. rewrite El in Hin.
      assert (Hin' : (a, b) ∈ rsws (Lr j) \/ (a, b) ∈ colpair n L0 j).
      { apply elem_of_app in Hin as [Hin|Hin]; apply elem_of_list_fmap in Hin as ([a' b'] & [= -> -> ->] & Hin); [by left|by right]. }
      destruct Hin' as [Hin'|Hin'].
      - destruct (rsws_node62 n Hn L0 HL0 j (a, b) Hin') as (H1 & H2 & H3).
        destruct (rsws_pres n Hn ts L0 HL0 Hts Li Hready Hroot j a b Hin') as [[H4 H5] [H6 H7]]. done.
      - destruct (colpair_node62 n Hn L0 HL0 h HhR Hdead j (a, b) ltac:(lia) Hin') as (H1 & H2 & H3).
        destruct (colpair_pres n Hn ts L0 HL0 Hts Li Hready Hroot j a b Hj ltac:(apply Hdead; lia) Hin') as [[H4 H5] [H6 H7]]. done. }
    destruct (P_do_swaps_ok n Hn j l p L M g Hpn HR Hg Hl) as (p1 & L1 & M1 & g1 & qs & E & Hqs & Hpn1 & HR1 & Hg1 & HL1 & HL1' & HM1 & HG1 & HV1 & HF1 & HW1 & HPM1 & HE1).
    rewrite Ef, E. cbn [bind fst snd]. rewrite E2 in Hqs. rewrite E1 in *. clear E1 E2 Ef E Hva El Hl l.
    assert (Hact : forall r x, (r <= j)%nat -> actt j (rsws (Lr j) ++ colpair n L0 j) r x = lift (N.of_nat (j - r)) (sigma (Lr j) (Yr (S j))) x).
    { intros r x Hr. unfold actt. destruct (Nat.leb_spec r j); [|lia]. unfold lift. by rewrite sigma_pair62. }
    exists p1, L1, M1, g1, (QD ++ qs). split; [done|]. split.
    { unfold newdirt. apply Forall2_app; [done|].
      change ((λ s : N * N, s.2 / 2) <$> rsws (Lr j)) with (((λ x, x / 2) ∘ snd) <$> rsws (Lr j)). rewrite list_fmap_compose.
      eapply Forall2_map_in; [exact Hqs|]. intros b q Hb Hq. apply elem_of_list_fmap in Hb as ([a b'] & -> & Hab). cbn [snd] in *.
      apply apath_dpath; [|eapply apath_ext; [|exact Hq]; intros r i Hr; apply Hup; lia].
      apply newdirt_rsing in Hab. by apply (rsing_comp n Hn ts L0 HL0 Hts j). }
    split; [done|]. split; [done|]. split; [done|].
    split; [intros r i Hr; rewrite HL1 by done; by apply Hup|].
    split; [intros r i Hr; rewrite <- Hact by lia; by apply HL1'|].
    split. { intros i. specialize (HM1 i). rewrite Hact in HM1 by lia. by rewrite Nat.sub_0_r in HM1. }
    split; [intros r i Hr; rewrite <- Hact by lia; apply HG1|].
    split; [|split; [done|split; [|split; [|split; [done|]]]]].
    + intros r i Hr. specialize (HG1 r i). unfold actt in HG1. destruct (Nat.leb_spec r j); [lia|done].
    + intros x Hx. specialize (HF1 x Hx). rewrite Hact in HF1 by lia. by rewrite Nat.sub_0_r in HF1.
    + intros w Hm Hw. destruct (HW1 w Hm Hw) as (w1 & W1 & W2). exists w1. split; [intros r i Hr; rewrite <- Hact by lia; apply W1|]. split; [|done].
      intros r i Hr. specialize (W1 r i). unfold actt in W1. destruct (Nat.leb_spec r j); [lia|done].
    + intros Hi. destruct (HE1 Hi) as [Hi1 HE1']. split; [done|]. intros h0 x Hx Eh. destruct (HE1' h0 x Hx Eh) as [HEa HEb]. split; [|done].
      rewrite Hact in HEa by lia. by rewrite Nat.sub_0_r in HEa.
  - pose proof (dead_above62 j ltac:(lia) Hj) as Hd. exists p, L, M, g, QD. split; [done|].
    assert (Hs : forall x, sigma (Lr j) (Yr (S j)) x = x) by (intros x; apply sigma_full; done).
    assert (Hl : forall d x, lift d (sigma (Lr j) (Yr (S j))) x = x) by (intros d x; by apply lift_id).
    split. { unfold newdirt. destruct (full_row _ Hd) as (_ & -> & _). cbn [fmap list_fmap]. by rewrite app_nil_r. }
    do 4 (split; [done|]). split_and!; try apply moved_self; try (intros; rewrite ?Hl; done). 
    + intros w Hm Hw. exists w. split_and!; [intros; by rewrite Hl|done|done|done].
    + intros Hi. split; [done|]. intros h0 x Hx Eh. split; [|done]. by rewrite Hl.
Qed.

Lemma kept_move j L M L1 M1 s y : (forall r i, (r < j)%nat -> L1 r (lift (N.of_nat (j - r)) s i) = L r i) ->
  (forall i, M1 (lift (N.of_nat j) s i) = M i) -> kept L1 M1 j (sib (s y)) = kept L M j (sib y).
Proof.
  intros HL HM. destruct j as [|j]; cbn [kept]; rewrite !sib_sib.
  - specialize (HM y). unfold lift in HM. change (2 ^ N.of_nat 0) with 1 in HM. by rewrite N.div_1_r, N.mod_1_r, N.mul_1_r, N.add_0_r in HM.
  - assert (E : forall b, b < 2 -> L1 j (2 * s y + b) = L j (2 * y + b)).
    { intros b Hb. rewrite <- HL by lia. replace (S j - j)%nat with 1%nat by lia. f_equal. unfold lift. change (2 ^ N.of_nat 1) with 2.
      replace ((2 * y + b) / 2) with y by dlia. replace ((2 * y + b) mod 2) with b by dlia. lia. }
    pose proof (E 0 ltac:(lia)) as E0. rewrite !N.add_0_r in E0. by rewrite E0, (E 1) by lia.
Qed.

(** A removed leaf does not end up under a position that is hashed again in row 0. *)
Lemma sw_inj a b x y : sw a b x = sw a b y -> x = y.
Proof. intros E. by rewrite <- (sw_invol a b x), E, sw_invol. Qed.
Lemma act_inj l : forall x y, act l x = act l y -> x = y.
Proof. induction l as [|s l IH]; intros x y; [done|]. rewrite !act_cons. intros E%IH. by eapply sw_inj. Qed.
Lemma sigma_inj l y x x' : sigma l y x = sigma l y x' -> x = x'.
Proof. unfold sigma. destruct (colfrom l); [intros E%sw_inj|intros E]; by eapply act_inj. Qed.
Lemma dirt_alive x : (0 < N.to_nat R)%nat -> x ∈ ts -> sigma (Lr 0) (Yr 1) x / 2 ∉ newdirt L0 0 [].
Proof.
  intros HR Hx Hin. rewrite <- Hts in Hx. apply dead_elem in Hx as [_ Hx]. rewrite N.sub_0_r in Hx.
  unfold newdirt in Hin. cbn [app] in Hin. apply elem_of_list_fmap in Hin as ([f t] & Ed & Hft). cbn [snd] in Ed.
  pose proof (newdirt_rsing _ _ _ _ Hft) as Ht. change (Lr 0) with L0 in *.
  apply singles_elem in Ht as Hk. destruct Hk as (k & pr & Hk & Hh). rewrite N.add_0_l in Hh.
  destruct (hole_dead _ _ _ _ Hk Hh) as (_ & _ & Etk). pose proof (ends_in _ _ _ Hft) as [_ Hte].
  pose proof (next_spec _ _ _ Hk) as Hs. match type of Hs with match ?e with _ => _ end => destruct e as [[c|]|] eqn:Ek; [|exfalso|done] end.
  - assert (HYi : Yr 1 <> N.of_nat k).
    { intros EY. assert (Ek' : Lr 1 !! k = Some (Some c)) by (by rewrite rowat_S). destruct (decide (dead 0 (Lr 1) = [])) as [Ed'|Ed'].
      - unfold Y in EY. rewrite tailpos_full in EY by done. apply lookup_lt_Some in Ek'. unfold size in EY. unfold chunk in *. lia.
      - pose proof (tailpos_dead (N.to_nat R - 1) (Lr 1) (rows_bound62 n L0 1 HL0 ltac:(lia)) Ed') as Hz.
        fold (Yr 1) in Hz. rewrite EY, Nat2N.id in Hz. unfold chunk in *. congruence. }
    destruct (row_alive L0 k c (Yr 1) Ek HYi) as (a & b & i0 & i1 & _ & Ha & Hb & Hs0 & Hs1 & _).
    assert (Hc : cont L0 x = None) by (unfold cont; by rewrite Hx).
    rewrite Etk in Ed. destruct (two_half (sigma L0 (Yr 1) x)) as [E|E]; rewrite Ed in E.
    + rewrite <- Hs0 in E. apply sigma_inj in E as ->. congruence.
    + rewrite <- Hs1 in E. apply sigma_inj in E as ->. congruence.
  - destruct Hs as [->|(t1 & Hh1 & Hs)]; [done|]. rewrite Hh in Hh1. apply (inj Some) in Hh1 as <-.
    destruct Hs as [(t' & Hst & _)|(Hl & Hri & Ho)].
    + pose proof (ends_in _ _ _ Hst) as [Hse _]. apply (sib_ne t). eapply halves_inj; [apply rsws_halves|exact Hse|exact Hte|apply sib_half].
    + assert (Hcf : colfrom L0 = Some (sib t)).
      { unfold colfrom. rewrite <- Nat.negb_odd, Ho, Hri, Hl. done. }
      apply colfrom_half in Hcf. apply Hcf. rewrite sib_half. by apply half_in.
Qed.
Lemma sigma_pres x : (0 < N.to_nat R)%nat -> x ∈ ts -> is_Some (Li 0%nat (sigma (Lr 0) (Yr 1) x)).
Proof.
  intros HR Hx. rewrite <- sigma_pair62. remember (rsws (Lr 0) ++ colpair n L0 0) as l eqn:El.
  assert (Hd0 : dead 0 (Lr 0) <> []) by (change (Lr 0) with L0; rewrite Hts; by destruct ts; [apply elem_of_nil in Hx|]).
  assert (Hl : forall a b, (a, b) ∈ l -> is_Some (Li 0%nat a) /\ is_Some (Li 0%nat b)).
  { intros a b Hab. rewrite El in Hab. apply elem_of_app in Hab as [Hab|Hab].
    - destruct (rsws_pres n Hn ts L0 HL0 Hts Li Hready Hroot 0 a b Hab) as [[? _] [? _]]. done.
    - destruct (colpair_pres n Hn ts L0 HL0 Hts Li Hready Hroot 0 a b HR Hd0 Hab) as [[? _] [? _]]. done. }
  assert (HLx : is_Some (Li 0%nat x)).
  { apply (Hready 0%nat x). left. rewrite <- Hts in Hx. apply dead_elem in Hx as [_ Hx]. rewrite N.sub_0_r in Hx.
    pose proof (dead_computed n Hn ts L0 HL0 Hts 0 (N.to_nat x)) as Hc. rewrite N2Nat.id in Hc. by apply Hc. }
  clear El Hx. revert x HLx. induction l as [|[a b] l IH]; intros x HLx; [done|]. rewrite act_cons. cbn [fst snd]. apply IH.
  - intros a' b' Hab. apply Hl. by right.
  - destruct (Hl a b ltac:(left)) as [Ha Hb]. unfold sw. repeat case_match; done.
Qed.

Lemma P_rows_ok k : forall j p L M g D QD, (j + k)%nat = N.to_nat R -> p_n p = n -> rep p T L M -> agree p T L g ->
  (forall r i, (j <= r)%nat -> L r i = Li r i) -> (forall d, d ∈ D -> computed n ts (N.of_nat (S j)) d) ->
  Forall2 (dpath n Li (S j)) D QD ->
  (dead 0 (Lr j) <> [] -> (0 < j)%nat -> kept L M j (sib (Yr j)) = true) -> (j = 0%nat -> D = []) ->
  exists p' L' M' g', P_remove_rows H k (N.of_nat j) n swaps p QD = Ok (p', []) /\ p_n p' = n /\
    rep p' T L' M' /\ agree p' T L' g' /\ rowsrel H n L0 k j g D g' /\
    (forall r x, (r < j)%nat -> x < 2 ^ N.of_nat (j - r) ->
       L' r (alive (Lr j) * 2 ^ N.of_nat (j - r) + x) = L r (Yr j * 2 ^ N.of_nat (j - r) + x)) /\
    (forall r, (j <= r < N.to_nat R)%nat -> bit (Lr r) = 1 -> dead 0 (Lr r) <> [] -> is_Some (L' r (2 * alive (Lr (S r))))) /\ moved n M g M' g' /\
    (forall x, x < n -> is_Some (L 0%nat x) -> (j = 0%nat -> D = [] /\ x ∈ ts) -> exists y, y < n /\ is_Some (L' 0%nat y) /\ g' 0%nat y = g 0%nat x) /\
    (forall w, mw M w -> tw n L w -> exists w', rowsrel N.max n L0 k j w D w' /\ mw M' w' /\ tw n L' w') /\
    (all_marked n M -> pm_right n p g -> pm_right n p' g') /\
    (inj0 n g -> inj0 n g' /\ forall h x, x < n -> g 0%nat x = h -> exists y, y < n /\ g' 0%nat y = h /\
       ((0 < j)%nat -> L' 0%nat y = L 0%nat x /\ (is_Some (L 0%nat x) -> p_posmap p !! h = Some x -> p_posmap p' !! h = Some y) /\
          (L 0%nat x = None -> p_posmap p' !! h = p_posmap p !! h)) /\
       (j = 0%nat -> (0 < k)%nat -> p_posmap p !! h = Some x ->
          p_posmap p' !! h = Some (if L' 0%nat y then y else sigma (Lr 0) (Yr 1) x))).
Proof.
  induction k as [|k IH]; intros j p L M g D QD Hj Hpn HR Hg Hup HD HQ HJ HJ0.
  - assert (D = []) as ->.
    { destruct D as [|d D]; [done|]. assert (Hd : node n (N.of_nat (S j)) d) by (apply HD; left).
      apply node_row in Hd. lia. }
    apply Forall2_nil_inv_l in HQ as ->.
    exists p, L, M, g. cbn [P_remove_rows rowsrel]. do 5 (split; [done|]). split; [|split; [intros r Hr; lia|split; [apply moved_self|split; [intros x Hx HL _; by exists x|split; [intros w Hm Hw; by exists w|split; [done|intros Hi; split; [done|]; intros h0 x Hx Eh; exists x; split_and!; (done || lia)]]]]]].
    intros r x Hr Hx. unfold Y. replace (N.to_nat R - j)%nat with 0%nat by lia. done.
  - cbn [P_remove_rows].
    destruct (P_swaps_row_ok j p L M g D QD ltac:(lia) Hpn HR Hg Hup HQ)
      as (p1 & L1 & M1 & g1 & QD1 & E1 & HQ1 & Hpn1 & HR1 & Hg1 & Hup1 & HL1 & HM1 & HG1 & HG1' & HV1 & HF1 & HW1 & HPM1 & HE1).
    rewrite E1. cbn [bind fst snd].
    assert (HD1 : forall d, d ∈ newdirt L0 j D -> computed n ts (N.of_nat (S j)) d).
    { intros d Hd. apply elem_of_app in Hd as [Hd|Hd]; [by apply HD|].
      apply elem_of_list_fmap in Hd as ([a b] & -> & Hab). cbn [snd]. apply newdirt_rsing in Hab.
      destruct (rsing_comp n Hn ts L0 HL0 Hts j b Hab) as [H1 H2]. by apply computed_up. }
    destruct (P_rehash_ok H n Hn Li j (newdirt L0 j D) p1 L1 M1 g1 [] QD1 [] Hpn1 HR1 Hg1 HQ1 ltac:(constructor))
      as (p2 & L2 & g2 & D2 & QD2 & E2 & HQ2 & Hpn2 & HR2 & Hg2 & HL2 & HL2' & HL2n & HG2 & HG2d & _ & HD2 & HD2' & HS2 & HK2).
    { intros r i Hr. apply Hup1. lia. }
    { intros d Hd. apply HD1 in Hd. rewrite !Hup1 by lia.
      destruct (pres_comp n ts Li Hready Hroot (S j) d Hd) as [H1 H2]. split; [done|]. split; [done|]. left.
      by apply (pres_kids n ts Li Hready Hroot). }
    rewrite E2. cbn [bind fst snd].
    assert (HD2c : forall d, d ∈ D2 -> computed n ts (N.of_nat (S (S j))) d).
    { intros x Hx. apply HD2 in Hx as [Hx%elem_of_nil|(d & Hd & -> & Hx)]; [done|]. apply computed_up; [by apply HD1|done]. }
    assert (Hal : alive (Lr j) = 2 * alive (Lr (S j)) + bit (Lr j)) by (rewrite rowat_S; apply alive_next).
    pose proof (bit_le (Lr j)) as Hbl.
    (* the moved hole *)
    assert (Hkept : dead 0 (Lr j) <> [] -> L2 j (sib (2 * Yr (S j) + bit (Lr j))) = Li j (sib (2 * Yr (S j) + bit (Lr j)))).
    { intros Hd. destruct (decide (j = 0%nat)) as [->|Hj0].
      - rewrite HL2n; [by apply Hup1|]. rewrite sib_half, (HJ0 eq_refl), <- sigma_Y by lia. apply dirt_alive; [lia|].
        destruct (Y_comp n Hn ts L0 HL0 Hts 0 ltac:(lia) Hd) as [_ (t & Ht' & Et)]. change (2 ^ N.of_nat 0) with 1 in Et.
        rewrite N.div_1_r in Et. by rewrite <- Et.
      - rewrite HL2'; [by apply Hup1|]. rewrite <- sigma_Y by lia.
        rewrite (kept_move j L M L1 M1 (sigma (Lr j) (Yr (S j))) (Yr j) HL1 HM1). apply HJ; [done|lia]. }
    assert (Hpres : dead 0 (Lr j) <> [] -> dead 0 (Lr (S j)) <> [] -> is_Some (L2 j (sib (2 * Yr (S j) + bit (Lr j))))).
    { intros Hd Hd'. rewrite Hkept by done.
      destruct (pres_kids n ts Li Hready Hroot j (Yr (S j))) as [H1 H2]; [apply Y_comp; [done|done|done|lia|done]|].
      destruct (sib_2 (Yr (S j))) as [S1 S2].
      assert (bit (Lr j) = 0 \/ bit (Lr j) = 1) as [->| ->] by lia; [by rewrite N.add_0_r, S1|by rewrite S2]. }
    destruct (IH (S j) p2 L2 M1 g2 D2 QD2 ltac:(lia) Hpn2 HR2 Hg2) as (p3 & L3 & M3 & g3 & E3 & Hpn3 & HR3 & Hg3 & Hrel & HT & HB & HV3 & HS3 & HW3 & HPM3 & HE3).
    { intros r i Hr. rewrite HL2 by lia. apply Hup1. lia. }
    { exact HD2c. }
    { exact HQ2. }
    { intros Hd' _. destruct (decide (dead 0 (Lr j) = [])) as [Hd|Hd].
      { destruct (full_row _ Hd) as (_ & _ & Hx & _). by rewrite rowat_S in Hd'. }
      cbn [kept]. rewrite sib_sib. destruct (Hpres Hd Hd') as [l El]. destruct (sib_2 (Yr (S j))) as [S1 S2].
      assert (bit (Lr j) = 0 \/ bit (Lr j) = 1) as [Eb|Eb] by lia; rewrite Eb in El; [rewrite N.add_0_r, S1 in El|rewrite S2 in El];
        rewrite El; cbn [is_null negb orb]; [apply orb_true_r|done]. }
    { done. }
    replace (N.of_nat j + 1) with (N.of_nat (S j)) by lia.
    exists p3, L3, M3, g3. split; [exact E3|]. split; [done|]. split; [done|]. split; [done|]. split.
    { exists g1, g2, D2. split; [done|]. split; [done|]. split; [done|]. split; [done|].
      split; [intros d Hd; by apply HD2c|]. split; [done|done]. }
    split; [|split; [|split; [|split; [|split; [|split]]]]].
    + intros r x Hr Hx. rewrite Hal. specialize (HT r (bit (Lr j) * 2 ^ N.of_nat (j - r) + x) ltac:(lia)).
      replace (S j - r)%nat with (S (j - r)) in HT by lia. rewrite pow_nat_S in HT.
      replace ((2 * alive (Lr (S j)) + bit (Lr j)) * 2 ^ N.of_nat (j - r) + x)
        with (alive (Lr (S j)) * (2 * 2 ^ N.of_nat (j - r)) + (bit (Lr j) * 2 ^ N.of_nat (j - r) + x)) by lia.
      rewrite HT by nia.
      replace (Yr (S j) * (2 * 2 ^ N.of_nat (j - r)) + (bit (Lr j) * 2 ^ N.of_nat (j - r) + x))
        with ((2 * Yr (S j) + bit (Lr j)) * 2 ^ N.of_nat (j - r) + x) by lia.
      rewrite HL2 by lia. rewrite <- sigma_Y by lia. rewrite <- (lift_block H n Hn L0 HL0 Hnn) by done. by apply HL1.
    + intros r Hr Hb Hd. destruct (decide (r = j)) as [->|Hne]; [|apply HB; [lia|done|done]].
      assert (Hd' : dead 0 (Lr (S j)) <> []).
      { intros Hd'. destruct (tail_end (Lr j) Hd Hd' _ eq_refl) as (Hc & _). unfold bit in Hb. by rewrite Hc in Hb. }
      specialize (HT j 0 ltac:(lia)). replace (S j - j)%nat with 1%nat in HT by lia. change (2 ^ N.of_nat 1) with 2 in HT.
      rewrite !N.add_0_r, !(N.mul_comm _ 2) in HT. rewrite HT by lia.
      specialize (Hpres Hd Hd'). rewrite Hb in Hpres. by rewrite (proj2 (sib_2 (Yr (S j)))) in Hpres.
    + eapply moved_trans; [exact HV1|]. eapply moved_trans; [|exact HV3]. intros y Hy. exists y. split; [done|]. split; [done|]. apply HG2. by left.
    + intros x Hx HLx Hj0. remember (lift (N.of_nat j) (sigma (Lr j) (Yr (S j))) x) as x1 eqn:Ex1.
      assert (Hx1 : x1 < n) by (subst x1; by apply HF1).
      assert (Hg21 : g2 0%nat x1 = g 0%nat x).
      { rewrite HG2 by (left; lia). specialize (HG1 0%nat x ltac:(lia)). rewrite Nat.sub_0_r in HG1. by rewrite Ex1. }
      enough (HL2x : is_Some (L2 0%nat x1)) by (rewrite <- Hg21; apply HS3; [done|done|lia]).
      destruct j as [|j].
      * destruct (Hj0 eq_refl) as [-> Hxt]. assert (El : lift 0 (sigma (Lr 0) (Yr 1)) x = sigma (Lr 0) (Yr 1) x).
        { unfold lift. change (2 ^ 0) with 1. by rewrite N.div_1_r, N.mul_1_r, N.mod_1_r, N.add_0_r. }
        change (N.of_nat 0) with 0 in Ex1. rewrite El in Ex1. clear El. destruct (decide (x1 / 2 ∈ newdirt L0 0 [])) as [Hin|Hin].
        -- exfalso. apply (dirt_alive x ltac:(lia) Hxt). by rewrite <- Ex1.
        -- rewrite HL2n by done. rewrite Hup1 by lia. rewrite Ex1. apply sigma_pres; [lia|done].
      * rewrite HL2 by lia. specialize (HL1 0%nat x ltac:(lia)). rewrite Nat.sub_0_r in HL1. by rewrite Ex1, HL1.
    + intros w Hm Hw. destruct (HW1 w Hm Hw) as (w1 & W1 & W1' & Wm & Wt).
      remember (λ (r : nat) i, if decide (r = S j /\ i ∈ newdirt L0 j D) then N.max (w1 j (2 * i)) (w1 j (2 * i + 1)) else w1 r i) as w2 eqn:Ew2.
      assert (W2 : forall r i, (r <> S j \/ i ∉ newdirt L0 j D) -> w2 r i = w1 r i) by (intros r i Hri; rewrite Ew2; rewrite decide_False; [done|]; intros [-> ?]; destruct Hri; done).
      assert (W2d : forall i, i ∈ newdirt L0 j D -> w2 (S j) i = N.max (w1 j (2 * i)) (w1 j (2 * i + 1))) by (intros i Hi; rewrite Ew2; by rewrite decide_True).
      clear Ew2. destruct (HW3 w2) as (w3 & Hrel3 & Hm3 & Ht3).
      { intros x. rewrite W2 by (left; lia). apply Wm. }
      { intros r x Hx HLx. assert (HL1x : is_Some (L1 r x)) by (destruct HLx as [l Hl]; exists l; by apply HS2).
        destruct (decide (r = j /\ x / 2 ∈ newdirt L0 j D)) as [[-> Hin]|Hne].
        - rewrite W2d by done. assert (Hk : kept L1 M1 j x = true).
          { apply HK2; [done| | |done]; rewrite !Hup1 by lia; by apply (pres_kids n ts Li Hready Hroot j (x / 2)), HD1. }
          assert (Hs : 1 <= w1 j (sib x)).
          { unfold kept in Hk. destruct j as [|j0]; [by rewrite Wm, Hk|].
            assert (Hns : node n (N.of_nat (S j0)) (sib x)) by (apply trees_under, inT_sib; by apply trees_under).
            destruct (half_2 (sib x)) as [D1' D2'].
            apply orb_true_iff in Hk as [Hk|Hk].
            - rewrite <- D1' in Hns |- *. apply (Wt j0 (2 * sib x)); [done|]. by destruct (L1 j0 (2 * sib x)).
            - rewrite <- D2' in Hns |- *. apply (Wt j0 (2 * sib x + 1)); [done|]. by destruct (L1 j0 (2 * sib x + 1)). }
          destruct (two_half x) as [Ex|Ex]; destruct (sib_2 (x / 2)) as [S1 S2]; rewrite Ex in Hs at 1; [rewrite S1 in Hs|rewrite S2 in Hs]; lia.
        - rewrite W2; [by apply Wt|]. destruct (decide (r = j)) as [->|]; [right; tauto|left; lia]. }
      exists w3. split; [|done]. exists w1, w2, D2. do 4 (split; [done|]). split; [intros d Hd; by apply HD2c|]. done.
    + intros HM Hpm. apply HPM3; [by eapply moved_marked|]. intros h' x. rewrite (P_rehash_dirt_posmap H n _ _ _ _ _ E2), HG2 by (left; lia).
      by apply HPM1.
    + intros Hi. destruct (HE1 Hi) as [Hi1 HE1']. assert (Hi2 : inj0 n g2).
      { intros x y Hx Hy. rewrite !HG2 by (left; lia). by apply Hi1. }
      destruct (HE3 Hi2) as [Hi3 HE3']. split; [done|]. intros h0 x Hx Eh. destruct (HE1' h0 x Hx Eh) as [HEa HEb].
      remember (lift (N.of_nat j) (sigma (Lr j) (Yr (S j))) x) as x1 eqn:Ex1. assert (Hx1 : x1 < n) by (subst x1; by apply HF1).
      assert (Hg21 : g2 0%nat x1 = h0).
      { rewrite HG2 by (left; lia). specialize (HG1 0%nat x ltac:(lia)). rewrite Nat.sub_0_r in HG1. by rewrite Ex1, HG1. }
      destruct (HE3' h0 x1 Hx1 Hg21) as (y & Hy & Ey & HE3a & _). destruct (HE3a ltac:(lia)) as (EL & HEs & HEn). clear HE3a HE3'.
      rewrite (P_rehash_dirt_posmap H n _ _ _ _ _ E2) in HEs, HEn. exists y. split; [done|]. split; [done|]. split.
      * intros Hj0. assert (EL2 : L2 0%nat x1 = L 0%nat x).
        { rewrite HL2 by lia. specialize (HL1 0%nat x ltac:(lia)). rewrite Nat.sub_0_r in HL1. by rewrite Ex1, HL1. }
        rewrite EL2 in *. split; [done|]. split; [intros Hs He; apply HEs; [done|]; apply HEa; [done|by right]|].
        intros Hs. rewrite HEn by done. by apply HEb.
      * intros -> _ He. assert (El : x1 = sigma (Lr 0) (Yr 1) x).
        { rewrite Ex1. unfold lift. change (2 ^ N.of_nat 0) with 1. by rewrite N.div_1_r, N.mul_1_r, N.mod_1_r, N.add_0_r. }
        rewrite <- El. specialize (HEa He ltac:(by left)). rewrite EL. destruct (L2 0%nat x1) as [l|]; [apply HEs; [by eexists|done]|].
        by rewrite HEn.
Qed.
End Rows.

Lemma survivors_iff ls ts h : h ∈ survivors ls ts <-> exists i, i < size ls /\ i ∉ ts /\ leaf_at ls i = h.
Proof.
  unfold survivors. rewrite elem_of_list_omap. split.
  - intros ([i x] & Hin & Hd). cbn [fst snd] in Hd. destruct (decide _) as [|Hn]; [done|]. injection Hd as ->.
    apply elem_of_lookup_imap_1 in Hin as (j & y & E & Hy). injection E as -> ->. exists (N.of_nat j).
    destruct (proj2 (leaf_at_lookup ls (N.of_nat j) y)) as [H1 H2]; [by rewrite Nat2N.id|]. done.
  - intros (i & Hi & Hn & E). exists (N.to_nat i, h). cbn [fst snd]. rewrite N2Nat.id, decide_False by done. split; [|done].
    apply (elem_of_lookup_imap_2 pair ls). apply leaf_at_lookup. done.
Qed.
Lemma leaf_at_inj ls i j : NoDup ls -> i < size ls -> j < size ls -> leaf_at ls i = leaf_at ls j -> i = j.
Proof.
  intros Hnd Hi Hj E. pose proof (proj1 (leaf_at_lookup ls i _) (conj Hi eq_refl)) as H1. pose proof (proj1 (leaf_at_lookup ls j _) (conj Hj eq_refl)) as H2.
  rewrite E in H1. apply N2Nat.inj. by eapply NoDup_lookup.
Qed.
Lemma leaf_at_elem ls i : i < size ls -> leaf_at ls i ∈ ls.
Proof. intros Hi. eapply elem_of_list_lookup_2. by apply leaf_at_lookup. Qed.
Lemma elem_leaf_at ls h : h ∈ ls -> exists i, i < size ls /\ leaf_at ls i = h.
Proof. intros [k Hk]%elem_of_list_lookup. exists (N.of_nat k). apply leaf_at_lookup. by rewrite Nat2N.id. Qed.

Section Remove.
Context (H : hash -> hash -> hash).

(** The part of the pollard that has to be there before targets can be removed. *)
Definition PReady (p : pollard) (ls : list hash) (ts : list N) : Prop :=
  p_n p = size ls /\ exists L M, rep p (trees (size ls)) L M /\ agree p (trees (size ls)) L (nh H (leaf_at ls)) /\ ready (size ls) ts L M.
Definition PReadyM (p : pollard) (ls : list hash) (ts : list N) (M : N -> bool) : Prop :=
  p_n p = size ls /\ exists L, rep p (trees (size ls)) L M /\ agree p (trees (size ls)) L (nh H (leaf_at ls)) /\ ready (size ls) ts L M.
Definition PStockM (p : pollard) (ls : list hash) (ts : list N) (M : N -> bool) : Prop :=
  p_n p = size ls /\ exists L, rep p (trees (size ls)) L M /\ agree p (trees (size ls)) L (nh H (leaf_at ls)) /\ stocked (size ls) ts L.
Lemma PReadyM_stock p ls ts M : PReadyM p ls ts M -> PStockM p ls ts M.
Proof. intros (E & L & HR & Hg & Hs & _). split; [done|]. by exists L. Qed.
Lemma PReady_mark p ls ts : PReady p ls ts <-> exists M, PReadyM p ls ts M.
Proof. split; [intros (E & L & M & ?); exists M; split; [done|]; by exists L|]. intros (M & E & L & ?). split; [done|]. by exists L, M. Qed.
(** Every leaf comes, with its mark, from some leaf. *)
Definition kept_marks (ls : list hash) (M : N -> bool) (ls' : list hash) (M' : N -> bool) : Prop :=
  forall i, i < size ls' -> exists x, x < size ls /\ M' i = M x /\ leaf_at ls' i = leaf_at ls x.

(** Labels of the nodes: whether a remembered leaf is below. *)
Lemma nhmax_ge lab r : forall i x, x / 2 ^ N.of_nat r = i -> lab x <= nh N.max lab r i.
Proof.
  clear. induction r as [|r IH]; intros i x Hx.
  - change (2 ^ N.of_nat 0) with 1 in Hx. rewrite N.div_1_r in Hx. subst i. cbn [nh]. lia.
  - rewrite div_pow_half in Hx. cbn [nh]. destruct (two_half (x / 2 ^ N.of_nat r)) as [E|E]; rewrite Hx in E; apply IH in E; lia.
Qed.
Lemma nhmax_ex lab r : forall i, 1 <= nh N.max lab r i -> exists x, x / 2 ^ N.of_nat r = i /\ 1 <= lab x.
Proof.
  clear. induction r as [|r IH]; intros i Hi; cbn [nh] in Hi.
  - exists i. change (2 ^ N.of_nat 0) with 1. by rewrite N.div_1_r.
  - destruct (half_2 i) as [E1 E2]. assert (Hor : 1 <= nh N.max lab r (2 * i) \/ 1 <= nh N.max lab r (2 * i + 1)) by lia.
    destruct Hor as [(x & Ex & Hx)%IH|(x & Ex & Hx)%IH]; exists x; rewrite div_pow_half, Ex; done.
Qed.
Definition lab (M : N -> bool) (x : N) : N := if M x then 1 else 0.
Lemma tight_labels n L M : tight (trees n) L M -> tw n L (nh N.max (lab M)).
Proof.
  intros Ht r x Hx Hl. apply trees_under in Hx. destruct (Ht r x Hx Hl) as (i & Hi & Ei). pose proof (nhmax_ge (lab M) (S r) _ i Ei) as Hge.
  unfold lab at 1 in Hge. by rewrite Hi in Hge.
Qed.
Lemma labels_remove ls ts M M' w' : size ls <= 2 ^ 62 -> valid_targets (size ls) ts -> ts <> [] ->
  rowsrel N.max (size ls) (leaf_row ls ts) (N.to_nat (NumRows (size ls))) 0 (nh N.max (lab M)) [] w' -> mw M' w' ->
  forall r i, node (size ls - size ts) (N.of_nat r) i -> 1 <= w' r i -> exists x, M' x = true /\ x / 2 ^ N.of_nat r = i.
Proof.
  intros Hn Hv Hne Hrel HM r i Hi Hw. remember (N.of_nat <$> seq 0 (length ls)) as idx eqn:Eidx.
  assert (Hidx : forall (f : N -> N) k, k < size ls -> leaf_at (f <$> idx) k = f k).
  { intros f k Hk. unfold leaf_at. unfold size in Hk. rewrite Eidx. apply list_lookup_total_correct. rewrite !list_lookup_fmap, lookup_seq_lt by lia.
    cbn [fmap option_fmap option_map]. do 2 f_equal. lia. }
  assert (Hlen : forall (f : N -> N), size (f <$> idx) = size ls) by (intros f; unfold size; by rewrite fmap_length, Eidx, fmap_length, seq_length).
  assert (Els : leaf_at ls <$> idx = ls).
  { apply list_eq. intros k. destruct (decide (k < length ls)%nat) as [Hk|Hk].
    - pose proof (Hidx (leaf_at ls) (N.of_nat k) ltac:(unfold size; lia)) as E. unfold leaf_at at 1 3 in E. rewrite Nat2N.id in E.
      rewrite !list_lookup_lookup_total_lt by (try done; specialize (Hlen (leaf_at ls)); unfold size in Hlen; lia). by f_equal.
    - rewrite !lookup_ge_None_2; [done|lia|specialize (Hlen (leaf_at ls)); unfold size in Hlen; lia]. }
  rewrite <- Els in Hrel at 2. rewrite leaf_row_cm in Hrel. apply rowsrel_mc, (rowsrel_cm (lab M)) in Hrel. rewrite <- leaf_row_cm in Hrel.
  rewrite <- (Hlen (lab M)) in Hrel, Hn, Hv, Hi.
  destruct (rows_spec N.max (lab M <$> idx) ts (nh N.max (lab M)) w' Hn Hv Hne) as [Hsz HG].
  { intros r' i' Hi'. apply nh_ext. intros x Hx. symmetry. apply Hidx. rewrite <- (Hlen (lab M)). unfold node in Hi'. lia. }
  { exact Hrel. }
  rewrite HG in Hw by done. apply nhmax_ex in Hw as (x & Ex & Hx). exists x. split; [|done].
  assert (Hxn : node (size (lab M <$> idx) - size ts) (N.of_nat 0) x).
  { unfold node in *. change (2 ^ N.of_nat 0) with 1. pose proof (pow_pos (N.of_nat r)). rewrite <- Ex in Hi. generalize dependent (2 ^ N.of_nat r). clear. intros P. intros. 
    pose proof (N.mul_succ_div_gt x P). nia. }
  pose proof (HG 0%nat x Hxn) as E. cbn [nh] in E. rewrite HM in E. rewrite <- E in Hx. by destruct (M' x).
Qed.

Lemma first_row_moves n L0 h x : (0 < h)%nat -> moved_by (first_row (fin n L0 <$> seq 0 h)) x = sigma (rowat L0 0) (Y n L0 1) x.
Proof.
  intros Hh. destruct h as [|h]; [lia|]. cbn [seq fmap list_fmap first_row]. rewrite <- (sigma_pair62 n L0 0 x).
  unfold fin, sws, moved_by. rewrite fold_left_app, act_app. change (N.of_nat 0) with 0.
  assert (Hf : forall (mk : N * N -> swap) l y, (forall s, m_from (mk s) = s.1 /\ m_to (mk s) = s.2) -> fold_left (fun y s => exchange s y) (mk <$> l) y = act l y).
  { intros mk l. induction l as [|s l IH]; intros y Hm; [done|]. cbn [fmap list_fmap fold_left]. rewrite act_cons. rewrite IH by done. f_equal.
    unfold exchange, sw. by destruct (Hm s) as [-> ->]. }
  rewrite !Hf; [done|..]; intros [a b]; cbn [m_from m_to mk_swap mk_collapse fst snd]; by rewrite !enc_0.
Qed.
Lemma P_Remove_mark p ls ts M : PStockM p ls ts M -> size ls <= 2 ^ 62 -> valid_targets (size ls) ts -> ts <> [] ->
  exists p' M', P_Remove H p ts = Ok (true, p') /\ PMark H p' (spec_remove ls ts) M' /\ size (spec_remove ls ts) = size ls - size ts /\ kept_marks ls M (spec_remove ls ts) M' /\
    (NoDup ls -> forall h, is_Some (p_posmap p' !! h) <-> is_Some (p_posmap p !! h) /\ h ∉ leaf_at ls <$> ts) /\
    (PTight p (size ls) M -> PTight p' (size (spec_remove ls ts)) M') /\
    (all_marked (size ls) M -> pm_right (size ls) p (nh H (leaf_at ls)) -> pm_right (size (spec_remove ls ts)) p' (nh H (leaf_at (spec_remove ls ts)))) /\
    (NoDup ls -> forall sws x, Transform (size ls) ts = Ok sws -> x < size ls -> x ∉ ts -> p_posmap p !! leaf_at ls x = Some x ->
      exists y, y < size (spec_remove ls ts) /\ leaf_at (spec_remove ls ts) y = leaf_at ls x /\
        ((P_Read p' y = Ok (Some (leaf_at ls x)) /\ p_posmap p' !! leaf_at ls x = Some y) \/
         (P_Read p' y = Ok None /\ p_posmap p' !! leaf_at ls x = Some (moved_by (first_row sws) x)))).
Proof.
  intros (Hpn & L & HR & Hg & Hready) Hn62 Hv Hne. remember (size ls) as n eqn:En.
  remember (leaf_row ls ts) as L0 eqn:EL0.
  assert (HL0 : size L0 = n) by (rewrite EL0, leaf_row_size; done).
  assert (Hdead : dead 0 L0 = ts) by (rewrite EL0; apply leaf_row_dead; by rewrite <- En).
  pose proof (dead_size L0) as Hds. rewrite Hdead, HL0 in Hds.
  assert (Hal : alive L0 < n).
  { destruct ts; [done|]. unfold size in Hds at 1. cbn [length] in Hds. lia. }
  destruct (Transform_ok n L0 Hn62 HL0 ltac:(by rewrite Hdead)) as (h & Hh & Hdd & He & Ht). rewrite Hdead in Ht.
  pose proof Hne as Hne0.
  unfold P_Remove. destruct ts as [|t0 ts0] eqn:Ets; [done|]. rewrite <- Ets in *. clear Ets Hne t0 ts0.
  rewrite Hpn. rewrite (proj2 (CheckTargetsSanity_true n ts) Hv). cbn [bind negb]. rewrite Ht. cbn [bind].
  pose proof (rp_root _ _ _ _ HR) as Hroot.
  destruct (P_rows_ok H n Hn62 L0 HL0 Hal h Hh Hdd He ts Hdead L Hready Hroot
    (N.to_nat (NumRows n)) 0 p L M (nh H (leaf_at ls)) [] []) as (p1 & L1 & M1 & g1 & E1 & Hpn1 & HR1 & Hg1 & Hrel & _ & HB & HV & HS & HW & HPM & HE); try done.
  { by intros d ?%elem_of_nil. }
  { intros _ Hlt. lia. }
  change (N.of_nat 0) with 0 in E1. rewrite E1. cbn [bind fst snd].
  change (size (@nil path) =? 0) with true. cbn [assert_ bind].
  rewrite Hpn1. assert (H64 : 2 ^ 62 < two64) by done.
  rewrite sub64_small by lia. remember (n - size ts) as n' eqn:En'. assert (Ea : alive L0 = n') by lia.
  destruct (rows_spec H ls ts (nh H (leaf_at ls)) g1) as [Hsz HG]; rewrite <- ?En, <- ?EL0; try done.
  rewrite <- En, <- En' in Hsz, HG.
  destruct (FinalizeRemove_rep n Hn62 p1 L1 M1 g1 n' Hpn1 HR1 Hg1 ltac:(lia)) as (p2 & E2 & Hpn2 & HR2 & Hg2 & Hvals).
  { intros [r i] Hri. unfold rt. cbn [fst snd]. pose proof Hri as Hrt. apply trees_elem in Hri as [H1 H2].
    assert (Er : r = N.of_nat (N.to_nat r)) by lia. rewrite Er in H1, H2, Hrt. remember (N.to_nat r) as r0 eqn:Er0. clear Er Er0 r.
    pose proof Hrt as Hb. apply trees_elem, is_root_iff in Hb as [Hb Ei]. rewrite testbit_mod in Hb. apply N.eqb_eq in Hb.
    assert (Hr0 : (r0 < N.to_nat (NumRows n))%nat).
    { assert (Hx : N.of_nat r0 < NumRows n); [|lia]. apply pow_inj_lt. pose proof (NumRows_bound n) as Hbn.
      assert (2 ^ N.of_nat r0 <= n'); [|lia]. unfold node in H1. nia. }
    pose proof (rowat_alive L0 r0) as Ea0. pose proof (rowat_alive L0 (S r0)) as Ea1. rewrite Ea in Ea0, Ea1.
    replace (N.of_nat (S r0)) with (N.of_nat r0 + 1) in Ea1 by lia. rewrite <- Ea1 in Ei. subst i.
    assert (Eal : alive (rowat L0 r0) = 2 * alive (rowat L0 (S r0)) + bit (rowat L0 r0)) by (rewrite rowat_S; apply alive_next).
    pose proof (bit_le (rowat L0 r0)) as Hbl. rewrite <- Ea0 in Hb.
    assert (Hb1 : bit (rowat L0 r0) = 1) by (clear - Hb Eal Hbl; dlia).
    destruct (decide (dead 0 (rowat L0 r0) = [])) as [Hd|Hd]; [|apply HB; [lia|done|done]].
    apply (rp_root _ _ _ _ HR1). apply trees_elem, is_root_iff.
    pose proof (alive_full _ Hd) as Ef. rewrite rowat_size, HL0 in Ef.
    destruct (full_row _ Hd) as (_ & _ & Hd' & _). rewrite <- rowat_S in Hd'. pose proof (alive_full _ Hd') as Ef'.
    rewrite rowat_size, HL0 in Ef'. split.
    - rewrite testbit_mod, <- Ef, Hb. done.
    - rewrite Ef'. replace (N.of_nat (S r0)) with (N.of_nat r0 + 1) by lia. done. }
  assert (Hkeys : forall h, is_Some (p_posmap p2 !! h) <-> is_Some (p_posmap p1 !! h) /\ forall y, n' <= y -> y < n -> P_Read p1 y <> Ok (Some h)).
  { intros h'. split; [intros [v Hv']; apply Hvals in Hv' as [Hv1 Hv2]; split; [by exists v|done]|].
    intros [[v Hv1] Hv2]. exists v. by apply Hvals. }
  assert (Hread : forall y l, y < n -> L1 0%nat y = Some l -> P_Read p1 y = Ok (Some (g1 0%nat y))).
  { intros y l Hy El. assert (Hyn : node n (N.of_nat 0) y) by (unfold node; change (2 ^ N.of_nat 0) with 1; lia).
    pose proof (P_Read_ok n Hn62 p1 L1 M1 0 y Hpn1 HR1 Hyn) as Er.
    change (N.of_nat 0) with 0 in Er. rewrite enc_0 in Er. rewrite Er, El. cbn [fmap option_fmap option_map].
    by rewrite (Hg1 0%nat y l ltac:(by apply trees_under) El). }
  assert (Hmoved : NoDup ls -> forall t, t ∈ ts -> exists y, n' <= y /\ y < n /\ is_Some (L1 0%nat y) /\ g1 0%nat y = leaf_at ls t).
  { intros Hnd t Ht'. assert (Htn : t < n) by (destruct Hv as [_ Hr]; rewrite ?Forall_forall in Hr; by apply Hr).
    assert (HLt : is_Some (L 0%nat t)).
    { apply (Hready 0%nat t). left. split; [unfold node; change (2 ^ N.of_nat 0) with 1; lia|]. exists t. split; [done|].
      change (2 ^ N.of_nat 0) with 1. by rewrite N.div_1_r. }
    destruct (HS t Htn HLt ltac:(done)) as (y & Hy & HLy & Eg). exists y.
    split; [|done]. apply N.nlt_ge. intros Hlt.
    rewrite (HG 0%nat y) in Eg by (unfold node; change (2 ^ N.of_nat 0) with 1; lia).
    change (leaf_at (spec_remove ls ts) y = leaf_at ls t) in Eg.
    pose proof (leaf_at_elem (spec_remove ls ts) y ltac:(by rewrite Hsz)) as Hin. rewrite Eg in Hin.
    rewrite spec_remove_perm in Hin. apply survivors_iff in Hin as (i & Hi & Hni & Ei). rewrite <- En in Hi.
    apply leaf_at_inj in Ei as ->; [done|done|by rewrite <- En|by rewrite <- En]. }
  assert (Hperm : NoDup ls -> leaf_at ls <$> ts ≡ₚ g1 0%nat <$> nseq n' (n - n')).
  { intros Hnd. specialize (Hmoved Hnd). apply submseteq_Permutation_length_le.
    2: { apply NoDup_submseteq.
      + apply NoDup_fmap_2_strong; [|by apply sorted_NoDup', Hv]. intros x y Hx Hy. destruct Hv as [_ Hr]. rewrite ?Forall_forall in Hr.
        apply leaf_at_inj; [done|rewrite <- En; by apply Hr|rewrite <- En; by apply Hr].
      + intros x (t & -> & Ht')%elem_of_list_fmap. destruct (Hmoved t Ht') as (y & Hy1 & Hy2 & _ & <-). apply elem_of_list_fmap_1, nseq_elem. lia. }
    rewrite !fmap_length, nseq_length. unfold size in En'. unfold size in Hds. lia. }
  rewrite E2. cbn [bind]. eexists _, M1. split; [done|]. split; [|split; [by rewrite Hsz|split; [|split; [|split; [|split]]]]].
  - split; [cbn [p_set_n p_n]; by rewrite Hsz|]. rewrite Hsz. exists L1. split; [by apply rep_set_n|].
    intros r i l Hin El. change (hv (p_heap p2) l = nh H (leaf_at (spec_remove ls ts)) r i). rewrite (Hg2 r i l Hin El). apply HG. by apply trees_under.
  - intros i Hi. rewrite Hsz in Hi. destruct (HV i ltac:(lia)) as (x & Hx & EM & Eg). exists x. rewrite <- En. split; [done|]. split; [done|].
    rewrite (HG 0%nat i) in Eg; [exact Eg|]. unfold node. change (2 ^ N.of_nat 0) with 1. lia.
  - intros Hnd. specialize (Hperm Hnd). specialize (Hmoved Hnd).
    intros h'. cbn [p_set_n p_posmap]. rewrite Hkeys. rewrite (P_remove_rows_keys _ _ _ _ _ _ _ _ _ E1 h'). split.
    + intros [Hh1 Hh2]. split; [done|]. intros (t & -> & Ht')%elem_of_list_fmap. destruct (Hmoved t Ht') as (y & Hy1 & Hy2 & [l El] & Eg).
      apply (Hh2 y Hy1 Hy2). by rewrite (Hread y l Hy2 El), Eg.
    + intros [Hh1 Hh2]. split; [done|]. intros y Hy1 Hy2 Er. apply Hh2. rewrite Hperm.
      assert (Hyn : node n (N.of_nat 0) y) by (unfold node; change (2 ^ N.of_nat 0) with 1; lia).
      destruct (L1 0%nat y) as [l|] eqn:El.
      * rewrite (Hread y l Hy2 El) in Er. apply Ok_inv in Er. injection Er as <-. apply elem_of_list_fmap_1, nseq_elem. lia.
      * pose proof (P_Read_ok n Hn62 p1 L1 M1 0 y Hpn1 HR1 Hyn) as Er'. change (N.of_nat 0) with 0 in Er'. rewrite enc_0 in Er'. rewrite Er', El in Er. discriminate Er.
  - intros Hti. apply (PTight_iff p n L M M Hn62 Hpn HR) in Hti. apply tight_labels in Hti.
    destruct (HW (nh N.max (lab M)) ltac:(done) Hti) as (w' & Hrel' & Hmw & Htw).
    rewrite Hsz. assert (HR3 : rep (p_set_n p2 n') (trees n') L1 M1) by (by apply rep_set_n).
    apply (PTight_iff (p_set_n p2 n') n' L1 M1 M1 ltac:(lia) ltac:(done) HR3). intros r x Hx%trees_under Hl.
    apply (labels_remove ls ts M M1 w'); rewrite <- ?En, <- ?EL0; [done..|by rewrite <- En'|]. apply Htw; [|done]. unfold node in *. lia.
  - intros HM Hpm. specialize (HPM HM Hpm). unfold pm_right in HPM |- *. rewrite Hsz. intros h' x. cbn [p_set_n p_posmap]. rewrite Hvals, HPM.
    assert (HM1 : all_marked n M1) by (by eapply moved_marked). split.
    + intros [[Hx E] Hno]. assert (Hlt : x < n').
      { apply N.nle_gt. intros Hle. destruct (marked_stored n Hn62 p1 L1 M1 HR1 HM1 x Hx) as [l El]. apply (Hno x Hle Hx). by rewrite (Hread x l Hx El), E. }
      split; [done|]. rewrite <- E. symmetry. apply HG. unfold node. change (2 ^ N.of_nat 0) with 1. lia.
    + intros [Hx E]. rewrite <- (HG 0%nat x) in E by (unfold node; change (2 ^ N.of_nat 0) with 1; lia). split; [split; [lia|done]|].
      intros y Hy1 Hy2 Er. destruct (marked_stored n Hn62 p1 L1 M1 HR1 HM1 y Hy2) as [l El]. rewrite (Hread y l Hy2 El) in Er. apply Ok_inv in Er. injection Er as Er.
      assert (Hxn : x < n) by lia. pose proof (proj2 (HPM h' x) (conj Hxn E)) as Q1. pose proof (proj2 (HPM h' y) (conj Hy2 Er)) as Q2. rewrite Q1 in Q2. injection Q2 as ->. lia.
  - intros Hnd sws x Et' Hx Hxt Hpos. apply Ok_inv in Et' as <-. rewrite Hsz.
    assert (Hinj : inj0 n (nh H (leaf_at ls))).
    { intros a c Ha Hc Eac. cbn [nh] in Eac. by apply (leaf_at_inj ls) in Eac; [|done|rewrite <- En..]. }
    destruct (HE Hinj) as [Hinj1 HE']. destruct (HE' (leaf_at ls x) x Hx eq_refl) as (y & Hy & Ey & _ & HE0). clear HE HE'.
    assert (HR0 : (0 < N.to_nat (NumRows n))%nat).
    { pose proof (NumRows_bound n) as Hbn. destruct (decide (NumRows n = 0)) as [E0|]; [|lia]. rewrite E0 in Hbn. change (2 ^ 0) with 1 in Hbn.
      destruct ts as [|t0 ts0]; [done|]. destruct Hv as [_ Hr]. inversion_clear Hr as [|? ? Ht0 _]. exfalso. apply Hxt. assert (x = t0) as -> by lia. left. }
    assert (Hh0 : (0 < h)%nat).
    { destruct h; [|lia]. destruct He as [He|He]; [lia|]. change (rowat L0 0) with L0 in He. rewrite Hdead in He. done. }
    assert (Hyn : y < n').
    { apply N.nle_gt. intros Hle. apply Hxt. assert (Hin : leaf_at ls x ∈ leaf_at ls <$> ts).
      { rewrite (Hperm Hnd), <- Ey. apply elem_of_list_fmap_1, nseq_elem. lia. }
      apply elem_of_list_fmap in Hin as (t & Et & Hin). apply leaf_at_inj in Et as ->; [done|done|by rewrite <- En|].
      rewrite <- En. destruct Hv as [_ Hr]. rewrite ?Forall_forall in Hr. by apply Hr. }
    assert (Hynode : node n' (N.of_nat 0) y) by (unfold node; change (2 ^ N.of_nat 0) with 1; lia).
    exists y. split; [done|]. split; [rewrite <- Ey; symmetry; apply (HG 0%nat y Hynode)|].
    specialize (HE0 eq_refl HR0 Hpos). rewrite first_row_moves by done.
    pose proof (P_Read_ok n' ltac:(lia) (p_set_n p2 n') L1 M1 0 y ltac:(done) ltac:(by apply rep_set_n) Hynode) as Er. change (N.of_nat 0) with 0 in Er. rewrite enc_0 in Er.
    assert (Hpm2 : forall v, p_posmap p1 !! leaf_at ls x = Some v -> p_posmap p2 !! leaf_at ls x = Some v).
    { intros v Hv'. apply Hvals. split; [done|]. intros z Hz1 Hz2 Ez.
      assert (Hznode : node n (N.of_nat 0) z) by (unfold node; change (2 ^ N.of_nat 0) with 1; lia).
      pose proof (P_Read_ok n Hn62 p1 L1 M1 0 z Hpn1 HR1 Hznode) as Er'. change (N.of_nat 0) with 0 in Er'. rewrite enc_0 in Er'. rewrite Ez in Er'. apply Ok_inv in Er'.
      destruct (L1 0%nat z) as [lz|] eqn:Elz; [|done]. rewrite (Hread z lz Hz2 Elz) in Ez. apply Ok_inv in Ez. injection Ez as Ez. rewrite <- Ey in Ez. apply Hinj1 in Ez; [lia|lia|lia]. }
    cbn [p_set_n p_posmap]. destruct (L1 0%nat y) as [l|] eqn:El.
    + left. split; [|by apply Hpm2]. rewrite Er. pose proof (Hg2 0%nat y l (proj2 (trees_under n' 0 y) Hynode) El) as Ehv. cbn [p_set_n p_heap fmap option_fmap option_map]. by rewrite Ehv, Ey.
    + right. split; [exact Er|]. by apply Hpm2.
Qed.

Lemma PReady_inv p ls ts : PReady p ls ts -> PInv H p ls.
Proof. intros (Hpn & L & M & HR & Hg & _). split; [done|]. by exists L, M. Qed.
Lemma P_Modify_mark p ls ts M (adds : list leaf) : PStockM p ls ts M -> size ls + size adds <= 2 ^ 62 -> valid_targets (size ls) ts ->
  exists p' M1 M', P_Modify H p adds ts = Ok (true, p') /\ PMark H p' (spec_remove ls ts ++ adds.*1) M' /\ kept_marks ls M (spec_remove ls ts) M1 /\
    (forall i, i < size (spec_remove ls ts) -> M' i = M1 i) /\ (forall k h b, adds !! k = Some (h, b) -> M' (size (spec_remove ls ts) + N.of_nat k) = b) /\
    (NoDup ls -> forall h, is_Some (p_posmap p' !! h) -> (is_Some (p_posmap p !! h) /\ h ∉ leaf_at ls <$> ts) \/ h ∈ adds.*1) /\
    (NoDup ls -> forall h, (is_Some (p_posmap p !! h) /\ h ∉ leaf_at ls <$> ts) \/ (h, true) ∈ adds -> is_Some (p_posmap p' !! h)) /\
    (PTight p (size ls) M -> PTight p' (size (spec_remove ls ts ++ adds.*1)) M') /\
    exists p1, P_Add H p1 adds = Ok p' /\ PMark H p1 (spec_remove ls ts) M1 /\
      (all_marked (size ls) M -> pm_right (size ls) p (nh H (leaf_at ls)) -> pm_right (size (spec_remove ls ts)) p1 (nh H (leaf_at (spec_remove ls ts)))).
Proof.
  intros Hp Hn Hv. unfold P_Modify.
  assert (Hrem : exists p1 M1, P_Remove H p ts = Ok (true, p1) /\ PMark H p1 (spec_remove ls ts) M1 /\ size (spec_remove ls ts) <= size ls /\ kept_marks ls M (spec_remove ls ts) M1 /\
    (NoDup ls -> forall h, is_Some (p_posmap p1 !! h) <-> is_Some (p_posmap p !! h) /\ h ∉ leaf_at ls <$> ts) /\
    (PTight p (size ls) M -> PTight p1 (size (spec_remove ls ts)) M1) /\
    (all_marked (size ls) M -> pm_right (size ls) p (nh H (leaf_at ls)) -> pm_right (size (spec_remove ls ts)) p1 (nh H (leaf_at (spec_remove ls ts))))).
  { destruct (decide (ts = [])) as [->|Hne].
    - exists p, M. split; [done|]. rewrite spec_remove_nil. destruct Hp as (Hpn & L & HR & Hg & _). split; [split; [done|]; by exists L|]. split; [done|].
      split; [intros i Hi; by exists i|]. split; [|split; [done|done]]. intros _ h. split; [intros Hh; split; [done|]; by intros ?%elem_of_nil|by intros [? _]].
    - destruct (P_Remove_mark p ls ts M Hp ltac:(lia) Hv Hne) as (p1 & M1 & E1 & Hp1 & Hs & Hk & Hky & Hti & Hpm & _). exists p1, M1. split; [done|]. split; [done|]. split; [lia|done]. }
  destruct Hrem as (p1 & M1 & E1 & Hp1 & Hs & Hk & Hky & Hti & Hpm). rewrite E1. cbn [bind fst snd negb].
  destruct (P_Add_mark H adds p1 _ M1 Hp1 ltac:(lia)) as (p2 & M2 & E2 & Hp2 & HM2 & HM2' & Hti2 & _). rewrite E2. cbn [bind]. exists p2, M1, M2.
  do 5 (split; [done|]). split; [|split; [|split; [auto|exists p1; split; [done|]; split; [done|done]]]]; cycle 1.
  { intros Hnd h [Hh|Hh]; eapply (P_Add_keeps H adds p1 p2 h E2); [left; by apply Hky|by right]. }
  intros Hnd h Hh. destruct (P_Add_keys H adds p1 p2 h E2 Hh) as [H1|H1]; [left; by apply Hky|by right].
Qed.
Lemma P_Modify_ok p ls ts (adds : list leaf) : PReady p ls ts -> size ls + size adds <= 2 ^ 62 -> valid_targets (size ls) ts ->
  exists p', P_Modify H p adds ts = Ok (true, p') /\ PInv H p' (spec_remove ls ts ++ adds.*1).
Proof.
  intros [M HM%PReadyM_stock]%PReady_mark Hn Hv. destruct (P_Modify_mark p ls ts M adds HM Hn Hv) as (p' & _ & M' & E & HM' & _). exists p'. split; [done|]. apply PInv_mark. by exists M'.
Qed.
End Remove.
