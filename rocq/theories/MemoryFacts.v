(** * MemoryFacts: how much a pollard stores (proofs) *)
From stdpp Require Import sorting.
From Verif Require Import Base StateModel CodecModel ForestModel PollardModel PosSpec PosFacts PathFacts MerkleSpec CodecSpec CodecFacts TargetFacts ForestFacts
  RowFacts TransformFacts SpecFacts RemoveFacts ForestInv AddFacts ForestSpec HistFacts ProofSpec ProveFacts PollardSpec PollardRep PollardOps PollardAdd PollardRemove PollardRows PollardInit PollardCreate
  PollardVerify PollardVerifyMain PollardPrune PollardHist PollardProps PollardCount PosmapFacts PollardRecall ForestExamples PollardExamples.
From Coq Require Import ZifyBool ZifyNat ZifyN.
Ltac Zify.zify_post_hook ::= idtac.
Ltac dlia := zify; Z.div_mod_to_equations; lia.

Lemma bind_length {A B} (f : A -> list B) (l : list A) k : (forall x, length (f x) = k) -> length (l ≫= f) = (length l * k)%nat.
Proof.
  intros Hf. induction l as [|x l IH]; [done|]. change ((x :: l) ≫= f) with (f x ++ (l ≫= f)). rewrite app_length, Hf, IH. cbn [length]. lia.
Qed.

Section Memory.
Context (H : hash -> hash -> hash).

Lemma C59_lem f p lo hi R r x h : recalls H f p lo hi -> is_height (f_n f) R -> node (f_n f) r x -> P_Read p (enc R r x) = Ok (Some h) ->
  is_root (f_n f) r x \/ exists t ht, t < f_n f /\ F_GetLeaf f t = Ok ht /\ ht ∈ hi /\ t / 2 ^ (r + 1) = x / 2.
Proof.
  intros Hrc HhR Hx E. destruct (recalls_tight H f p lo hi Hrc) as (us & ls & M & Hr & [Hfn Hgl] & Hn & [HP HT] & (_ & _ & H3)).
  apply NumRows_height in HhR as <-. rewrite Hfn in *. destruct (decide ((r, x) ∈ trees (size ls))) as [Ht|Ht]; [left; by apply trees_elem|right].
  rewrite <- (N2Nat.id r) in *. apply trees_up in Ht; [|done]. destruct (HT _ _ _ Ht E) as (i & Hi & Ei).
  replace (N.of_nat (S (N.to_nat r))) with (N.of_nat (N.to_nat r) + 1) in Ht, Ei by lia.
  assert (Hlt : i < size ls).
  { unfold node in Ht. rewrite <- Ei in Ht. pose proof (pow_pos (N.of_nat (N.to_nat r) + 1)). generalize dependent (2 ^ (N.of_nat (N.to_nat r) + 1)). intros P. intros.
    pose proof (N.mul_succ_div_gt i P). nia. }
  exists i, (leaf_at ls i). split; [done|]. split; [by apply Hgl|]. split; [by apply H3|done].
Qed.

Lemma C59_bound_lem f p lo hi R : recalls H f p lo hi -> is_height (f_n f) R -> P_CountNodes p <= size (F_Roots f) + 2 * R * N.of_nat (base.size hi).
Proof.
  intros Hrc HhR. pose proof (recalls_synced H f p lo hi Hrc) as Hs. destruct (C41_lem H f p R Hs HhR) as (ps & Hnd & Hps & ->).
  destruct (synced_inv H f p Hs) as (us & ls & Hr & Hh & Hn & _). pose proof (reachable_holds H f us ls Hr Hh) as (Hi & _).
  set (cand := elements hi ≫= λ h, nseq 0 R ≫= λ r, (λ b, enc R r (2 * (default 0 (f_posmap f !! h) / 2 ^ (r + 1)) + b)) <$> [0; 1]).
  set (roots := (λ t : N * N, enc R t.1 t.2) <$> trees (f_n f)).
  assert (Hsub : ps ⊆+ roots ++ cand).
  { apply NoDup_submseteq; [done|]. intros pos (r & i & h & Hi0 & -> & E)%Hps. apply elem_of_app.
    destruct (decide ((r, i) ∈ trees (f_n f))) as [Hrt|Hrt]; [left; apply elem_of_list_fmap; by exists (r, i)|].
    assert (HrR : r < R).
    { rewrite <- (N2Nat.id r) in *. apply trees_up in Hrt; [|done]. apply node_row in Hrt. apply NumRows_height in HhR. lia. }
    destruct (C59_lem f p lo hi R r i h Hrc HhR Hi0 E) as [Hrt'|(t & ht & Ht & Eg & Hhi & Et)]; [by apply trees_elem in Hrt'|].
    right. apply elem_of_list_bind. exists ht. split; [|by apply elem_of_elements]. apply elem_of_list_bind. exists r. split.
    - rewrite (proj2 (C07_lem H f us ht t Hr) (conj Ht Eg)). cbv beta. change (default 0 (Some t)) with t. rewrite Et. apply elem_of_list_fmap. destruct (two_half i) as [E2|E2].
      + exists 0. split; [by rewrite N.add_0_r, <- E2|left].
      + exists 1. split; [by rewrite <- E2|right; left].
    - apply nseq_elem. lia. }
  apply submseteq_length in Hsub. rewrite app_length in Hsub. unfold roots, cand in Hsub. rewrite fmap_length in Hsub.
  rewrite (bind_length _ _ (N.to_nat R * 2)) in Hsub.
  2: { intros h. rewrite (bind_length _ _ 2) by (intros r; by rewrite fmap_length). by rewrite nseq_length. }
  rewrite (inv_roots _ _ _ Hi). unfold spec_roots. destruct Hh as [<- _]. unfold size at 1 2. rewrite fmap_length. unfold base.size, set_size. cbn [compose]. lia.
Qed.

(** ** The keys of the position map *)
Lemma accept_keys f p bp ths p' h : synced H f p -> verifies H f p bp ths true p' -> is_Some (p_posmap p !! h) \/ h ∈ ths -> is_Some (p_posmap p' !! h).
Proof.
  intros Hs Hv Hh. destruct (C44_verify_lem H f p bp ths p' h Hs Hv) as [H1 H2]. destruct (decide (h ∈ ths)) as [Hin|Hin].
  - rewrite (H1 Hin). destruct (verified H f p bp ths p' Hs Hv) as (us & ls & Hr & [Hfn Hgl] & Hi & Hn & Hts & Hrd & Hths & Hpm).
    rewrite Hths in Hin. apply elem_of_list_fmap in Hin as (t & -> & Ht). assert (Hlt : t < size ls) by (destruct Hts as [_ Hf]; by apply (proj1 (Forall_forall _ _) Hf)).
    exists t. apply (C07_lem H f us _ t Hr). rewrite Hfn. split; [done|]. by apply Hgl.
  - rewrite (H2 Hin). by destruct Hh.
Qed.
Lemma recalls_keys f p lo hi : recalls H f p lo hi -> forall h, h ∈ lo -> is_Some (p_posmap p !! h).
Proof.
  assert (H62 : 2 ^ 31 <= 2 ^ 62) by done.
  induction 1 as [|f us p Hr E|f p lo hi bp ths p' Hs IH Hvf|f p lo hi hi' bp ths p' Hs IH (Hwf & E & Hnc) Hhi|f p lo hi p' Hs IH E|f p lo hi bp ths p1 adds f' p' Hs IH Hvf Hb EF EP|f p lo hi adds ts ths f' p' Hs IH Hst Hths Hb EF EP]; intros h Hh.
  - by apply elem_of_empty in Hh.
  - by apply elem_of_empty in Hh.
  - apply (accept_keys f p bp ths p' h (recalls_synced H f p lo hi Hs) Hvf). apply elem_of_union in Hh as [Hh|Hh]; [left; by apply IH|right; by rewrite elem_of_list_to_set in Hh].
  - destruct (recalls_inv H f p lo hi Hs) as (us & ls & M & Hr & Hls & Hn & HP & HM).
    pose proof (Verify_mark H p ls M bp ths HP ltac:(lia) Hwf) as HV. rewrite E in HV. cbn [wp] in HV. destruct HV as (_ & _ & Hf & _).
    destruct (Hf eq_refl) as (-> & _). by apply IH.
  - by apply elem_of_empty in Hh.
  - destruct (recalls_inv H f p lo hi Hs) as (us & ls & M & Hr & Hls & Hn & HP & HM). pose proof Hvf as (Hwf & E & Hnc).
    pose proof (Verify_mark H p ls M bp ths HP ltac:(lia) Hwf) as HV. rewrite E in HV. cbn [wp] in HV. destruct HV as (_ & _ & _ & Ht & _).
    destruct (Ht eq_refl) as [(Hv & _) [Hc|[(M1 & Hrd & Hgr) Hths]]]; [by apply Hnc in Hc|].
    destruct (reachable_holds H f us ls Hr Hls) as (Hi & _). pose proof (inv_NoDup H f ls Hi) as Hnd. pose proof (valid_size H _ _ Hv) as Hsz.
    destruct Hls as [Hfn _]. rewrite Hfn in Hb.
    destruct (P_Modify_mark H p1 ls _ M1 adds (PReadyM_stock _ _ _ _ _ Hrd) ltac:(lia) Hv) as (q & M2 & M' & Eq & _ & _ & _ & _ & _ & HK & _). rewrite Eq in EP. apply Ok_inv in EP. injection EP as <-.
    apply (HK Hnd). apply elem_of_union in Hh as [[Hh1 Hh2]%elem_of_difference|Hh].
    + left. split; [apply (accept_keys f p bp ths p1 h (recalls_synced H f p lo hi Hs) Hvf); left; by apply IH|]. rewrite <- Hths. by rewrite elem_of_list_to_set in Hh2.
    + right. rewrite elem_of_list_to_set in Hh. apply elem_of_list_fmap in Hh as ([h' b] & -> & [Hx1 Hx2]%elem_of_list_filter). cbn [fst snd] in *. by subst b.
  - destruct (recalls_inv H f p lo hi Hs) as (us & ls & M & Hr & Hls & Hn & HP & HM). destruct (stored_targets H f us ls adds ts f' Hr Hls Hb EF) as [Hv Hsz].
    apply (stored_hashes f ls ts ths Hls Hv) in Hths. destruct (reachable_holds H f us ls Hr Hls) as (Hi & _). pose proof (inv_NoDup H f ls Hi) as Hnd.
    destruct Hls as [Hfn _]. assert (H62' : 2 ^ 31 + 2 ^ 31 <= 2 ^ 62) by done. pose proof (stored_stock H f p ls M ts HP ltac:(lia) Hfn Hst) as Hrd. rewrite Hfn in Hb.
    destruct (P_Modify_mark H p ls _ M adds Hrd ltac:(lia) Hv) as (q & M2 & M' & Eq & _ & _ & _ & _ & _ & HK & _). rewrite Eq in EP. apply Ok_inv in EP. injection EP as <-.
    apply (HK Hnd). apply elem_of_union in Hh as [[Hh1 Hh2]%elem_of_difference|Hh].
    + left. split; [by apply IH|]. rewrite <- Hths. by rewrite elem_of_list_to_set in Hh2.
    + right. rewrite elem_of_list_to_set in Hh. apply elem_of_list_fmap in Hh as ([h' b] & -> & [Hx1 Hx2]%elem_of_list_filter). cbn [fst snd] in *. by subst b.
Qed.
End Memory.

(** ** A concrete case *)
Lemma ex_memory : exists f p v, recalls ex_H f p {[14; 21]} {[14; 21]} /\ is_height (f_n f) 3 /\ node (f_n f) 1 0 /\ ~ is_root (f_n f) 1 0 /\
  P_Read p (enc 3 1 0) = Ok (Some v).
Proof.
  destruct ex_recall as (_ & _ & _ & _ & f & p & _ & _ & _ & _ & _ & _ & Hr & [Hn Hg]). exists f, p.
  pose proof (Hg 2 ltac:(done)) as Hl. change (size ex_ls') with 6 in Hn. assert (Hh : is_height (f_n f) 3) by (rewrite Hn; by apply NumRows_height).
  assert (N1 : node 6 1 0) by done. assert (N2 : node 6 2 0) by done. assert (N3 : node 6 1 1) by done.
  assert (Hx : needed (f_n f) [2] 1 0).
  { rewrite Hn. split; [|split].
    - split; [done|]. exists 2. split; [left|done].
    - intros [_ Hx]. by apply Hx.
    - intros (_ & t & ->%elem_of_list_singleton & E). done. }
  destruct (C43_lem ex_H f p _ _ 2 14 Hr ltac:(by rewrite Hn) Hl ltac:(set_solver) 3 1 0 Hh Hx) as (v & Hv & _). exists v. split; [done|]. split; [done|].
  rewrite Hn. split; [done|]. split; [|done]. intros [_ Hx']. by apply Hx'.
Qed.
