(** * OwnFacts: exactly which proofs a pollard makes (proofs) *)
From stdpp Require Import sorting.
From Verif Require Import Base StateModel CodecModel ForestModel PollardModel PosSpec PosFacts PathFacts RowFacts TargetFacts ProofSpec TakeFacts VerifySpec MerkleSpec ForestSpec ForestInv ForestFacts ProveFacts HistFacts PosmapFacts
  PollardSpec PollardRep PollardOps PollardAdd PollardRemove PollardRows PollardInit PollardCreate PollardVerify PollardVerifyMain PollardPrune PollardHist PollardProps PollardRecall ForestExamples PollardExamples BindFacts UniqueFacts AcceptFacts.
From Coq Require Import ZifyBool ZifyNat ZifyN.
Ltac Zify.zify_post_hook ::= idtac.

Lemma p_read_hashes_some p ps hs : p_read_hashes p ps = Ok (Some hs) <-> Forall2 (λ q h, P_Read p q = Ok (Some h)) ps hs.
Proof.
  revert hs. induction ps as [|q ps IH]; intros hs; cbn [p_read_hashes].
  - split; [intros [= <-]; constructor|]. by inversion 1.
  - split.
    + intros E. apply bind_inv in E as (x & Ex & E). destruct x as [h|]; [|discriminate E]. apply bind_inv in E as (r & Er & E).
      destruct r as [vs|]; [|discriminate E]. injection E as <-. constructor; [done|]. by apply IH.
    + inversion 1 as [|? h ? vs Hq Hr]; subst. rewrite Hq. cbn [bind]. apply IH in Hr. rewrite Hr. done.
Qed.
Lemma p_read_hashes_ok p ps : (forall q, q ∈ ps -> exists x, P_Read p q = Ok x) -> exists r, p_read_hashes p ps = Ok r.
Proof.
  induction ps as [|q ps IH]; intros Hq; cbn [p_read_hashes]; [by eexists|]. destruct (Hq q ltac:(left)) as [x ->]. cbn [bind].
  destruct x; [|by eexists]. destruct IH as [r ->]; [intros; apply Hq; by right|]. cbn [bind]. by eexists.
Qed.

Section Own.
Context (H : hash -> hash -> hash).

(** A node that is stored has the hash it has in the forest. *)
Lemma synced_read f p R r i : synced H f p -> is_height (p_n p) R -> node (p_n p) r i ->
  exists x h, P_Read p (enc R r i) = Ok x /\ F_Read f (enc R r i) = Ok h /\ (x = None \/ x = Some h).
Proof.
  intros Hs HhR Hx. destruct (synced_inv H f p Hs) as (us & ls & Hr & Hh & Hn & (Hpn & L & M & HR & Hg)). assert (H62 : 2 ^ 31 <= 2 ^ 62) by done.
  destruct (reachable_holds H f us ls Hr Hh) as (Hi & _). rewrite Hpn in *. apply NumRows_height in HhR as <-.
  rewrite (inv_read H f ls r i Hi ltac:(lia) Hx). rewrite <- (N2Nat.id r) in Hx.
  pose proof (P_Read_ok (size ls) ltac:(lia) p L M (N.to_nat r) i Hpn HR Hx) as E. rewrite N2Nat.id in E. rewrite E. do 2 eexists. split; [done|]. split; [done|].
  destruct (L (N.to_nat r) i) as [l|] eqn:El; [right|by left]. cbn [fmap option_fmap option_map]. f_equal. apply Hg; [by apply trees_under|done].
Qed.
Lemma C79_exact_lem f p hs : synced H f p ->
  (exists r, P_Prove p hs = Ok r) /\
  forall bp, P_Prove p hs = Ok (Some bp) <->
    proof_wf bp /\ Forall2 (λ h t, p_posmap p !! h = Some t) hs (m_targets bp) /\ NoDup (m_targets bp) /\ Forall (λ t, t < p_n p) (m_targets bp) /\
    stored_proof p (m_targets bp) (m_proof bp).
Proof.
  intros Hs. destruct (synced_inv H f p Hs) as (us & ls & Hr & Hh & Hn & (Hpn & _)). assert (H62 : 2 ^ 31 <= 2 ^ 62) by done.
  assert (HhR : is_height (p_n p) (NumRows (p_n p))) by (by apply NumRows_height).
  unfold P_Prove. destruct (lookup_all (p_posmap p) hs) as [ts|] eqn:El.
  2:{ split; [by eexists|]. intros bp. split; [done|]. intros (_ & Hf & _). apply lookup_all_some in Hf. congruence. }
  pose proof El as Hl. apply lookup_all_some in Hl.
  assert (Huniq : forall bp, Forall2 (λ h t, p_posmap p !! h = Some t) hs (m_targets bp) -> m_targets bp = ts).
  { intros bp Hf. apply lookup_all_some in Hf. congruence. }
  destruct (CheckTargetsSanity_iff (p_n p) (sortN ts)) as (b & -> & Hb). rewrite valid_sortN in Hb. cbn [bind]. destruct b; cbn [negb].
  2:{ split; [by eexists|]. intros bp. split; [done|]. intros (_ & Hf & Hnd & Hlt & _). apply Huniq in Hf. rewrite Hf in *. assert (false = true); [|done]. by apply Hb. }
  destruct (proj1 Hb eq_refl) as [Hnd Hlt]. destruct (ProofPositions_ok (p_n p) ltac:(lia) (sortN ts)) as (P & C & -> & HP & _); [by apply valid_sortN|]. cbn [bind fst].
  rewrite (lists_nodes_ext _ _ (needed (p_n p) ts)) in HP by (intros r i; apply needed_perm, sortN_perm).
  pose proof (needed_count _ _ _ _ HP) as Hcnt. assert (Hmax : int_max + 1 = 2 ^ 31) by done. rewrite int_loop_ok by lia. cbn [bind].
  destruct (p_read_hashes_ok p P) as [r Er].
  { intros q Hq. destruct HP as [_ HP]. apply HP in Hq as (r & i & _ & -> & Hx). destruct (synced_read f p _ r i Hs HhR ltac:(by eapply needed_node)) as (x & h & E & _). by exists x. }
  rewrite Er. cbn [bind]. split; [by eexists|]. intros bp. split.
  - destruct r as [hh|]; [|done]. intros [= <-]. cbn [BatchProof m_targets m_proof]. split; [done|]. split; [done|]. split; [done|]. split; [done|].
    exists (NumRows (p_n p)), P. split; [done|]. split; [done|]. by apply p_read_hashes_some.
  - intros (Hwf & Hf & _ & _ & R & ps & HR & Hps & Hrd). apply Huniq in Hf. rewrite Hf in *. apply NumRows_height in HR as <-.
    assert (ps = P) as -> by (by eapply lists_nodes_unique). apply p_read_hashes_some in Hrd. rewrite Er in Hrd. injection Hrd as ->.
    destruct bp as [mt ms mp]. cbn [m_targets m_proof] in *. unfold proof_wf in Hwf. cbn [m_sorted_targets m_targets] in Hwf. subst. done.
Qed.
(** The hashes of a proof a pollard makes are those of the forest. *)
Lemma stored_forest f p ts prf : synced H f p -> stored_proof p ts prf ->
  exists R ps, is_height (p_n p) R /\ lists_nodes R (needed (p_n p) ts) ps /\ Forall2 (λ q h, F_Read f q = Ok h) ps prf.
Proof.
  intros Hs (R & ps & HR & Hps & Hrd). exists R, ps. split; [done|]. split; [done|]. destruct Hps as [_ Hps].
  assert (Hall : forall q, q ∈ ps -> exists r i, q = enc R r i /\ node (p_n p) r i).
  { intros q (r & i & _ & -> & Hx)%Hps. exists r, i. split; [done|]. by eapply needed_node. }
  clear Hps. induction Hrd as [|q h ps prf Hq _ IH]; constructor; [|apply IH; intros; apply Hall; by right].
  destruct (Hall q ltac:(left)) as (r & i & -> & Hx). destruct (synced_read f p R r i Hs HR Hx) as (x & h' & E & E' & Hor).
  rewrite Hq in E. injection E as <-. destruct Hor as [?|[= ->]]; [done|]. exact E'.
Qed.
(** With the hashes of the forest every pollard has what it needs. *)
Lemma forest_fills f q ts prf R ps : synced H f q -> is_height (p_n q) R -> lists_nodes R (needed (p_n q) ts) ps -> Forall2 (λ q h, F_Read f q = Ok h) ps prf -> fills f q ts prf.
Proof.
  intros Hs HR Hps Hrd. assert (Hst : exists st, Forall2 (λ x y, P_Read q x = Ok y) ps st /\ Forall2 (λ x h, x = None \/ x = Some h) st prf).
  { destruct Hps as [_ Hps]. assert (Hall : forall x, x ∈ ps -> exists r i, x = enc R r i /\ node (p_n q) r i).
    { intros x (r & i & _ & -> & Hx)%Hps. exists r, i. split; [done|]. by eapply needed_node. }
    clear Hps. induction Hrd as [|x h ps prf Hq _ IH]; [exists []; by split|]. destruct IH as (st & H1 & H2); [intros; apply Hall; by right|].
    destruct (Hall x ltac:(left)) as (r & i & -> & Hx). destruct (synced_read f q R r i Hs HR Hx) as (y & h' & E & E' & Hor).
    rewrite Hq in E'. injection E' as <-. exists (y :: st). split; by constructor. }
  destruct Hst as (st & H1 & H2). exists R, ps, st, prf. split; [done|]. split; [done|]. split; [done|]. split; [done|].
  apply takes_full. by apply Forall2_rev2.
Qed.
Lemma C79_hashes_lem f p hs bp : synced H f p -> P_Prove p hs = Ok (Some bp) ->
  exists R ps, is_height (p_n p) R /\ lists_nodes R (needed (p_n p) (m_targets bp)) ps /\ Forall2 (λ q h, F_Read f q = Ok h) ps (m_proof bp).
Proof. intros Hs E. apply (proj2 (C79_exact_lem f p hs Hs)) in E as (_ & _ & _ & _ & Hst). by apply stored_forest. Qed.
Lemma C79_verdict_lem f p q hs bp ls : synced H f p -> synced H f q -> holds_leaves f ls -> P_Prove p hs = Ok (Some bp) ->
  (exists q', P_Verify H q bp (leaf_at ls <$> m_sorted_targets bp) = Ok (true, q')) /\
  forall ths q', P_Verify H q bp ths = Ok (true, q') -> shows_collision H q' ls \/ ths = leaf_at ls <$> m_sorted_targets bp.
Proof.
  intros Hs Hq Hh E. destruct (synced_holds H f p ls Hs Hh) as (us & _ & _ & (Hpn & _) & _). destruct (synced_holds H f q ls Hq Hh) as (us' & _ & _ & (Hqn & _) & _).
  pose proof E as (Hwf & _ & Hnd & Hlt & _)%(proj2 (C79_exact_lem f p hs Hs)). destruct (C79_hashes_lem f p hs bp Hs E) as (R & ps & HR & Hps & Hrd). split.
  - apply (C76_accepts_lem H f q bp _ ls Hq Hh Hwf); [|done|].
    + rewrite Hwf. apply valid_sortN. by rewrite <- Hpn.
    + apply (forest_fills f q _ _ R ps Hq); [by rewrite Hqn, <- Hpn| |done].
      rewrite Hwf. rewrite (lists_nodes_ext _ _ (needed (p_n p) (m_targets bp))); [done|]. intros r i. rewrite Hpn, Hqn. apply needed_perm, sortN_perm.
  - intros ths q' E'. destruct (C76_only_lem H f q bp ths q' ls Hq Hh Hwf E') as [Hc|(_ & Ht & _)]; [by left|by right].
Qed.
(** A proof made by a pollard is the one the forest makes of the leaves at its
    targets. *)
Lemma C79_forest_lem f p hs bp ls : synced H f p -> holds_leaves f ls -> P_Prove p hs = Ok (Some bp) ->
  F_Prove f (leaf_at ls <$> m_targets bp) = Ok (Some bp).
Proof.
  intros Hs Hh E. destruct (synced_holds H f p ls Hs Hh) as (us & Hr & Hn & (Hpn & _) & _). pose proof E as (Hwf & _ & Hnd & Hlt & _)%(proj2 (C79_exact_lem f p hs Hs)).
  destruct (C79_hashes_lem f p hs bp Hs E) as (R & ps & HR & Hps & Hrd). pose proof Hh as [Hfn Hgl]. rewrite Hpn in *. rewrite <- Hfn in HR.
  assert (Hall : forall t, t < size ls -> f_posmap f !! leaf_at ls t = Some t).
  { intros t Ht. apply (C07_lem H f us _ _ Hr). rewrite Hfn. split; [done|]. by apply Hgl. }
  assert (Hlk : lookup_all (f_posmap f) (leaf_at ls <$> m_targets bp) = Some (m_targets bp)).
  { apply lookup_all_some. rewrite Forall_forall in Hlt. clear -Hlt Hall. apply Forall2_fmap_l, Forall_Forall2_diag, Forall_forall. intros t Ht. by apply Hall, Hlt. }
  destruct (C06_lem H f us ls (leaf_at ls <$> m_targets bp) R Hr Hh HR) as [_ G].
  destruct G as (bq & qs & Eq & Ht & Hp & Hsd & Hqs & Hqh).
  - apply NoDup_fmap_2_strong; [|done]. rewrite Forall_forall in Hlt. intros x y Hx Hy Exy. apply Hlt in Hx, Hy. pose proof (Hall x Hx) as E1. rewrite Exy in E1. rewrite (Hall y Hy) in E1. congruence.
  - intros h (t & -> & Htt)%elem_of_list_fmap. rewrite Forall_forall in Hlt. apply Hlt in Htt. unfold leaf_at, size in *. apply elem_of_list_lookup_total_2. lia.
  - rewrite Eq. unfold F_Prove in Eq. rewrite Hlk in Eq.
    assert (Etg : m_targets bq = m_targets bp /\ m_sorted_targets bq = sortN (m_targets bp)).
    { apply bind_inv in Eq as (sane & _ & Eq). destruct (negb sane); [discriminate Eq|]. apply bind_inv in Eq as (pp & _ & Eq). apply bind_inv in Eq as (? & _ & Eq). apply bind_inv in Eq as (hh & _ & Eq). injection Eq as <-. done. }
    destruct Etg as [E1 E2]. rewrite E1 in *. rewrite Hfn in Hqs. assert (qs = ps) as -> by (by eapply lists_nodes_unique).
    assert (Epr : m_proof bq = m_proof bp).
    { assert (H62 : 2 ^ 31 <= 2 ^ 62) by done. destruct (reachable_holds H f us ls Hr Hh) as (Hi & _). rewrite Hfn in HR. apply NumRows_height in HR as <-.
      destruct Hps as [_ Hps]. assert (Hpos : forall q, q ∈ ps -> exists r i, slot (NumRows (size ls)) r i /\ q = enc (NumRows (size ls)) r i /\ node (size ls) r i).
      { intros q (r & i & Hsl & -> & Hx)%Hps. exists r, i. split; [done|]. split; [done|]. by eapply needed_node. }
      clear -Hqh Hrd Hpos Hi Hn H62. revert Hqh. generalize (m_proof bq). induction Hrd as [|q h ps prf Hq _ IH]; intros k Hk; [by inversion Hk|].
      inversion Hk as [|? h' ? k' (r & i & Hsl & -> & ->) Hk']; subst. f_equal; [|apply IH; [intros; apply Hpos; by right|done]].
      destruct (Hpos _ ltac:(left)) as (r' & i' & Hsl' & Ee & Hnd'). apply enc_inj in Ee as [-> ->]; [|done..]. rewrite (inv_read H f ls r' i' Hi ltac:(lia) Hnd') in Hq. by injection Hq. }
    destruct bp as [mt ms mp], bq as [mt' ms' mp']. cbn [m_targets m_proof m_sorted_targets] in *. unfold proof_wf in Hwf. cbn [m_sorted_targets m_targets] in Hwf. by subst.
Qed.
End Own.
