(** * WireFacts: undo batches and proofs that went over the wire, size of proofs (proofs) *)
From stdpp Require Import sorting.
From Verif Require Import Base StateModel CodecModel ForestModel PollardModel PosSpec PosFacts PathFacts MerkleSpec CodecSpec CodecFacts TargetFacts ForestFacts
  RowFacts TransformFacts SpecFacts RemoveFacts ForestInv AddFacts UndoFacts CommitFacts ForestSpec HistFacts ProofSpec ProveFacts PollardSpec PollardHist PollardProps PollardRemove PollardRecall.
From Coq Require Import ZifyBool ZifyNat ZifyN.
Ltac Zify.zify_post_hook ::= idtac.
Ltac dlia := zify; Z.div_mod_to_equations; lia.

(** ** The contents of an undo batch *)
Section Undo.
Context (H : hash -> hash -> hash).
Implicit Types (f : forest) (ls : list hash).

Lemma undo_batch_shape f (adds : list leaf) ts u f' : F_ModifyUndo H f adds ts = Ok (true, Some u, f') -> exists hs, u = UndoBatch (size adds) ts hs.
Proof.
  intros E. unfold F_ModifyUndo in E. apply bind_ok in E as ([b f1] & E1 & E). cbn [fst snd] in E. destruct b; cbn [negb] in E; [|done].
  apply bind_ok in E as ([u'|] & E2 & E); [|done]. apply bind_ok in E as (f2 & E3 & E). injection E as -> ->.
  unfold F_BuildUndoBatch in E2. apply bind_ok in E2 as (? & _ & E2). apply bind_ok in E2 as ([hs|] & _ & E2); [|done]. injection E2 as <-. by exists hs.
Qed.
Lemma undo_contents_lem f us ls (adds : list leaf) ts u f' : reachable H f us -> holds_leaves f ls -> f_n f + size adds < 2 ^ 31 + size ts ->
  F_ModifyUndo H f adds ts = Ok (true, Some u, f') ->
  exists hs, u = UndoBatch (size adds) ts hs /\ hs ≡ₚ (leaf_at ls <$> ts).
Proof.
  intros Hr Hh Hb E. destruct (undo_batch_shape f adds ts u f' E) as (hs & ->). exists hs. split; [done|].
  destruct (reachable_holds H f us ls Hr Hh) as (Hi & Hn & _). pose proof Hh as [Hfn Hg]. rewrite Hfn in Hb.
  destruct (C02_lem H f us ls adds ts f' Hr Hh Hb) as [Hv _]; [by right; eexists|].
  destruct (F_Modify_ok H f ls adds ts Hi Hn Hb Hv) as [(Hnd & f2 & u2 & _ & E2 & Hi' & Hn' & _ & Hent & Hsz)|(_ & _ & E2)]; [|congruence].
  rewrite E in E2. injection E2 as <- <-. destruct Hent as (ls1 & as_ & hs' & ts' & L0 & Eu & El & H1 & H2 & H3 & H4 & H5 & H6).
  pose proof (f_equal m_num_additions Eu) as E1. pose proof (f_equal m_deleted_positions Eu) as E2. pose proof (f_equal m_deleted_hashes Eu) as E3. cbn [m_num_additions m_deleted_positions m_deleted_hashes] in E1, E2, E3. subst ts' hs'.
  assert (Hlen : length as_ = length adds.*1) by (unfold leaf in *; rewrite fmap_length; unfold size in E1; lia).
  apply app_inj_2 in El as [<- <-]; [|done]. assert (H62 : 2 ^ 31 <= 2 ^ 62) by done.
  destruct (undo_swaps_exist (size ls) L0 ltac:(lia) H4) as (es & _ & Hgood & Hact).
  assert (Hnl : NoDup ls) by (by eapply inv_NoDup). assert (Hlts : forall t, t ∈ ts -> t < size ls) by (apply Forall_forall, Hv).
  assert (HszP : size (spec_remove ls ts ++ hs) = size ls) by (rewrite size_app'; lia).
  assert (Hpre : forall y, y < size ls -> exists x, x < size ls /\ leaf_at (spec_remove ls ts ++ hs) y = leaf_at ls x).
  { intros y Hy. assert (Hx : lact (rev es) y < size ls) by (refine (lact_lt H (size ls) (rev es) y _ Hy); intros s Hs; apply Hgood; by rewrite elem_of_list_In, <- in_rev, <- elem_of_list_In in Hs).
    exists (lact (rev es) y). split; [done|]. rewrite <- (H6 _ Hx), <- Hact, lact_rev. done. }
  apply NoDup_Permutation.
  { by apply NoDup_app in H3 as (_ & _ & ?). }
  { apply NoDup_fmap_2_strong; [|apply sorted_lt_NoDup, Hv]. intros x y Hx Hy. apply leaf_at_inj; [done|by apply Hlts|by apply Hlts]. }
  intros h. rewrite elem_of_list_fmap. apply NoDup_app in H3 as (_ & Hdisj & _). split.
  - intros Hh'. assert (Hin : h ∈ spec_remove ls ts ++ hs) by (apply elem_of_app; by right). apply elem_leaf_at in Hin as (y & Hy & Ey). rewrite HszP in Hy.
    destruct (Hpre y Hy) as (x & Hx & Ex). exists x. split; [congruence|]. destruct (decide (x ∈ ts)) as [|Hnt]; [done|]. exfalso. apply (Hdisj h); [|done].
    rewrite spec_remove_perm. apply survivors_iff. exists x. split; [done|]. split; [done|]. congruence.
  - intros (t & -> & Ht). assert (Hlt : t < size ls) by (by apply Hlts).
    assert (Hin : leaf_at ls t ∈ spec_remove ls ts ++ hs).
    { rewrite <- (H6 t Hlt), <- Hact. apply leaf_at_elem. rewrite HszP. by apply (lact_lt H). }
    apply elem_of_app in Hin as [Hin|]; [|done]. exfalso. rewrite spec_remove_perm in Hin. apply survivors_iff in Hin as (i & Hi0 & Hni & Ei).
    apply leaf_at_inj in Ei as ->; done.
Qed.

Lemma wire_undo_lem f us (adds : list leaf) ts u f' v : reachable H f us -> f_n f + size adds < 2 ^ 31 + size ts ->
  (forall i h, i < f_n f -> F_GetLeaf f i = Ok h -> h < 256 ^ 32) -> 8 + 36 * size ts < 2 ^ 31 ->
  F_ModifyUndo H f adds ts = Ok (true, Some u, f') ->
  exists bytes w f'', ub_Serialize u = Ok bytes /\ ub_Unserialize v bytes = Ok (true, w) /\ F_Undo H f' w = Ok (true, f'') /\ same_forest f f''.
Proof.
  intros Hr Hb Hl Hsz E. destruct (C01_lem H f us Hr) as (ls & Hh & _). destruct (undo_contents_lem f us ls adds ts u f' Hr Hh Hb E) as (hs & -> & Hp).
  destruct (C08_lem H f us adds ts _ f' Hr Hb E) as (f'' & Eu & Hs). pose proof Hh as [Hfn Hg]. destruct (reachable_holds H f us ls Hr Hh) as (Hi & Hn & _).
  destruct (C02_lem H f us ls adds ts f' Hr Hh) as [Hv _]; [by rewrite <- Hfn|by right; eexists|].
  assert (Hlt : forall t, t ∈ ts -> t < size ls) by (apply Forall_forall, Hv). pose proof (valid_size H _ _ Hv) as Hvs. rewrite Hfn in *.
  assert (H31 : 2 ^ 31 + 2 ^ 31 = 2 ^ 32) by done. assert (H4 : 2 ^ 31 <= 256 ^ 4) by done.
  destruct (ub_roundtrip v (size adds) ts hs) as (bytes & E1 & _ & E2).
  - lia.
  - apply Forall_forall. intros t Ht. apply Hlt in Ht. lia.
  - apply Forall_forall. intros h Hx. rewrite Hp in Hx. apply elem_of_list_fmap in Hx as (t & -> & Ht). eapply Hl; [by apply Hlt|]. by apply Hg, Hlt.
  - rewrite Hp. by rewrite fmap_length.
  - done.
  - by exists bytes, (UndoBatch (size adds) ts hs), f''.
Qed.

(** ** Proofs *)
Lemma prove_shape f hs bp : F_Prove f hs = Ok (Some bp) -> exists ts hh, bp = BatchProof ts hh.
Proof.
  intros EF. unfold F_Prove in EF. destruct (lookup_all (f_posmap f) hs) as [ts|]; [|done].
  apply bind_ok in EF as (b & _ & EF). destruct b; cbn [negb] in EF; [|done]. apply bind_ok in EF as (pp & _ & EF).
  apply bind_ok in EF as (? & _ & EF). apply bind_ok in EF as (hh & _ & EF). injection EF as <-. by eexists _, _.
Qed.
Lemma prove_good f us ls hs bp R : reachable H f us -> holds_leaves f ls -> is_height (f_n f) R -> F_Prove f hs = Ok (Some bp) -> exists ps,
  Forall2 (fun h t => t < f_n f /\ F_GetLeaf f t = Ok h) hs (m_targets bp) /\ lists_nodes R (needed (f_n f) (m_targets bp)) ps /\
  Forall2 (fun pos h => exists r i, slot R r i /\ pos = enc R r i /\ h = nh H (leaf_at ls) (N.to_nat r) i) ps (m_proof bp).
Proof.
  intros Hr Hh HR EF. destruct (C06_lem H f us ls hs R Hr Hh HR) as [Hbad Hgood].
  destruct (decide (NoDup hs /\ Forall (λ h, h ∈ ls) hs)) as [[Hnd Hin]|Hx].
  2: { rewrite Hbad in EF; [done|]. intros [Hnd Hin]. apply Hx. split; [done|]. by apply Forall_forall. }
  rewrite Forall_forall in Hin. destruct (Hgood Hnd Hin) as (bp' & ps & EF' & HF & _ & _ & Hps & Hprf). rewrite EF' in EF. injection EF as ->. by exists ps.
Qed.
Lemma needed_below n R ts r i : is_height n R -> needed n ts r i -> r < R.
Proof.
  intros HR ((Hnode & _) & Hnr & _). assert (Hp : node n (r + 1) (sib i / 2)).
  { unfold node in *. destruct (N.le_gt_cases ((sib i / 2 + 1) * 2 ^ (r + 1)) n) as [|Hgt]; [done|]. exfalso. apply Hnr. split; [done|]. unfold node. lia. }
  apply NumRows_height in HR as <-. apply node_slot in Hp as [Hp _]. lia.
Qed.
Lemma proof_size_lem f us hs bp R : reachable H f us -> is_height (f_n f) R -> F_Prove f hs = Ok (Some bp) ->
  size (m_targets bp) = size hs /\ size (m_proof bp) <= size hs * R /\ size (m_proof bp) <= f_n f.
Proof.
  intros Hr HR EF. destruct (C01_lem H f us Hr) as (ls & Hh & _). destruct (prove_good f us ls hs bp R Hr Hh HR EF) as (ps & HF & Hps & Hprf).
  apply Forall2_length in HF, Hprf. assert (E1 : size (m_targets bp) = size hs) by (unfold size; lia). assert (E2 : size (m_proof bp) = size ps) by (unfold size; lia).
  split; [done|]. rewrite E2. split; [|by eapply needed_count]. rewrite <- E1. destruct Hps as [Hs HP].
  apply (length_by_relation (λ p x, exists k t r i, m_targets bp !! k = Some t /\ r < R /\ p = enc R r i /\ sib i = t / 2 ^ r /\ x = N.of_nat k * R + r)).
  - by apply sorted_lt_NoDup.
  - intros p (r & i & _ & -> & Hx)%HP. pose proof (needed_below _ R _ _ _ HR Hx) as Hlt. destruct Hx as ((_ & t & Ht & E) & _).
    apply elem_of_list_lookup in Ht as [k Hk]. exists (N.of_nat k * R + r). split; [|by exists k, t, r, i]. apply lookup_lt_Some in Hk. unfold size. nia.
  - intros p q x _ _ (k & t & r & i & Hk & Hlt & -> & E & ->) (k' & t' & r' & i' & Hk' & Hlt' & -> & E' & Ex).
    assert (k = k' /\ r = r') as [<- <-] by (destruct (N.lt_trichotomy (N.of_nat k) (N.of_nat k')) as [?|[?|?]]; [nia| |nia]; split; nia).
    assert (t = t') as <- by congruence. f_equal. rewrite <- (sib_sib i), <- (sib_sib i'). congruence.
Qed.

Lemma wire_proof_lem f p hs bp ths : synced H f p -> (forall a b, H a b < 256 ^ 32) ->
  (forall i h, i < f_n f -> F_GetLeaf f i = Ok h -> h < 256 ^ 32) -> F_Prove f hs = Ok (Some bp) ->
  8 + 4 * size (m_targets bp) + 32 * size (m_proof bp) < 2 ^ 31 ->
  Forall2 (λ t h, F_GetLeaf f t = Ok h) (m_sorted_targets bp) ths ->
  exists bytes bq p', bp_Serialize bp = Ok bytes /\ bp_Unserialize BatchProofNull bytes = Ok (true, bq) /\
    P_Verify H p bq ths = Ok (true, p') /\ synced H f p'.
Proof.
  intros Hs HH Hl EF Hsz Hths. destruct (C26_lem H f p hs bp ths Hs EF Hths) as (p' & Ev & _ & Hs').
  destruct (synced_inv H f p Hs) as (us & ls & Hr & Hh & Hn & _). assert (HR : is_height (f_n f) (NumRows (f_n f))) by (by apply NumRows_height).
  destruct (prove_good f us ls hs bp _ Hr Hh HR EF) as (ps & HF & Hps & Hprf). destruct (prove_shape f hs bp EF) as (ts & hh & ->).
  cbn [m_targets m_proof BatchProof] in *. pose proof Hh as [Hfn Hg]. assert (H4 : 2 ^ 31 <= 256 ^ 4) by done. 
  destruct (bp_roundtrip ts hh) as (bytes & E1 & _ & E2).
  - apply Forall_forall. intros t [k Hk]%elem_of_list_lookup. destruct (Forall2_lookup_r _ _ _ _ _ HF Hk) as (h & _ & Hlt & _). lia.
  - apply Forall_forall. intros h [k Hk]%elem_of_list_lookup. destruct (Forall2_lookup_r _ _ _ _ _ Hprf Hk) as (q & Hq & r & i & Hsl & -> & ->).
    destruct Hps as [_ HP]. apply elem_of_list_lookup_2, HP in Hq as (r' & i' & Hsl' & E & Hx). apply enc_inj in E as [-> ->]; [|done|done].
    apply nh_fits; [done| |rewrite N2Nat.id, <- Hfn; by eapply needed_node].
    apply Forall_forall. intros h (x & Hx0 & <-)%elem_leaf_at. eapply (Hl x); [by rewrite Hfn|by apply Hg].
  - done.
  - by exists bytes, (BatchProof ts hh), p'.
Qed.
End Undo.
