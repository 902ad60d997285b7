(** * LightFacts: pollards without a forest (proofs) *)
From stdpp Require Import sorting.
From Verif Require Import Base StateModel CodecModel ForestModel PollardModel PosSpec PosFacts PosmapFacts PathFacts MerkleSpec TargetFacts ForestFacts RowFacts TransformFacts SpecFacts RemoveFacts ForestInv ForestSpec HistFacts
  ProofSpec ProveFacts PollardSpec PollardInit PollardRep PollardOps PollardAdd PollardRemove PollardHist PollardProps ForestExamples PollardExamples UnverifiedExamples LightSpec.
From Coq Require Import ZifyBool ZifyNat ZifyN.
Ltac Zify.zify_post_hook ::= idtac.

Section Light.
Context (H : hash -> hash -> hash).
Implicit Types (f : forest) (p : pollard) (ls : list hash).

Lemma roots_of_eq ls rs : roots_of H ls rs -> rs = spec_roots H ls.
Proof. intros (ts & Hf & ->). unfold spec_roots, trees. by rewrite (forest_unique _ _ Hf). Qed.
Lemma roots_of_spec ls : roots_of H ls (spec_roots H ls).
Proof. apply spec_roots_of. Qed.
Lemma flat_singles (L : list (option chunk)) : Forall (λ o, match o with Some c => length c = 1%nat | None => True end) L -> length (flat L) = length (omap id L).
Proof.
  unfold flat. induction 1 as [|[c|] L Hc HL IH]; [done| |done]. change (omap id (Some c :: L)) with (c :: omap id L). change (mjoin (c :: omap id L)) with (c ++ mjoin (omap id L)).
  rewrite app_length, Hc. cbn [length Nat.add]. f_equal. exact IH.
Qed.
Lemma spec_remove_size ls ts : valid_targets (size ls) ts -> size (spec_remove ls ts) + size ts = size ls.
Proof.
  intros Hv. pose proof (dead_size (leaf_row ls ts)) as Hd. rewrite (leaf_row_dead ls ts Hv), leaf_row_size in Hd. rewrite <- Hd.
  assert (Hs : length (spec_remove ls ts) = length (omap id (leaf_row ls ts))).
  { rewrite spec_remove_perm, <- leaf_row_flat. apply flat_singles. unfold leaf_row. apply Forall_lookup. intros i o Hi. apply list_lookup_imap_Some in Hi as (h & _ & ->). by destruct (decide _). }
  revert Hs. unfold alive, size. generalize (length (omap id (leaf_row ls ts))). intros k ->. lia.
Qed.
Lemma sizes ls ts (adds : list leaf) : valid_targets (size ls) ts -> size ls + size adds < 2 ^ 31 + size ts -> size ts <= size ls /\ size (spec_remove ls ts ++ adds.*1) < 2 ^ 31.
Proof.
  intros Hv Hb. pose proof (valid_size H _ _ Hv) as Hsz. split; [done|]. pose proof (spec_remove_size ls ts Hv) as Hs. rewrite size_app', size_fst. clear - Hs Hb. lia.
Qed.
Lemma light_inv p ls : light H p ls -> size ls < 2 ^ 31 /\ PInv H p ls.
Proof.
  assert (H62 : 2 ^ 31 + 2 ^ 31 <= 2 ^ 62) by done.
  induction 1 as [|ls rs p Hn Hr E|p ls bp ths b p' _ [Hn HP] Hwf E Hnc|p ls p' _ [Hn HP] E|p ls bp ths p1 adds p' _ [Hn HP] Hwf E Hnc Hb EP|p ls adds ts p' _ [Hn HP] Hv Hst Hb EP].
  - split; [done|apply PInv_new].
  - split; [done|]. destruct (PInv_restore H ls ltac:(lia)) as (q & Eq & HP). rewrite (roots_of_eq ls rs Hr), Eq in E. by injection E as <-.
  - split; [done|]. pose proof (Verify_inv H p ls bp ths HP Hn Hwf) as HV. rewrite E in HV. cbn [wp] in HV. destruct HV as (_ & _ & Hf & Ht & _). destruct b.
    + destruct (Ht eq_refl) as [_ [Hc|[Hrd _]]]; [done|]. by eapply PReady_inv.
    + by apply Hf.
  - split; [done|]. destruct (PInv_prune H p ls HP ltac:(lia)) as (q & Eq & HP' & _). rewrite Eq in E. by injection E as <-.
  - pose proof (Verify_inv H p ls bp ths HP Hn Hwf) as HV. rewrite E in HV. cbn [wp] in HV. destruct HV as (_ & _ & _ & Ht & _).
    destruct (Ht eq_refl) as [(Hv & _ & _) [Hc|[Hrd _]]]; [done|]. destruct (sizes ls _ adds Hv Hb) as [Hsz Hn']. split; [done|].
    destruct (P_Modify_ok H p1 ls _ adds Hrd ltac:(lia) Hv) as (q & Eq & HPq). rewrite Eq in EP. by injection EP as <-.
  - destruct (sizes ls ts adds Hv Hb) as [Hsz Hn']. split; [done|]. apply PInv_mark in HP as [M HP].
    assert (Hrd : PStockM H p ls ts M).
    { destruct HP as (Hpn & L & HR & Hg). split; [done|]. exists L. split; [done|]. split; [done|]. intros r i Hc.
      assert (Hnode : node (size ls) (N.of_nat r) i) by (destruct Hc as [[Hc _]|Hc%needed_node]; done).
      destruct (Hst (NumRows (size ls)) (N.of_nat r) i ltac:(by apply NumRows_height) Hc) as [v E].
      rewrite (P_Read_ok (size ls) ltac:(lia) p L M r i Hpn HR Hnode) in E. injection E as E. by apply fmap_Some in E as (l & -> & _). }
    destruct (P_Modify_mark H p ls ts M adds Hrd ltac:(lia) Hv) as (q & _ & M' & Eq & HPq & _). rewrite Eq in EP. injection EP as <-. apply PInv_mark. by exists M'.
Qed.
Lemma C84_roots_lem p ls : light H p ls -> p_n p = size ls /\ exists rs, P_Roots p = Ok rs /\ roots_of H ls rs.
Proof.
  intros [Hn HP]%light_inv. split; [by destruct HP|]. exists (spec_roots H ls). split; [by apply PInv_roots|apply roots_of_spec].
Qed.
Lemma C84_modify_lem p ls bp ths p1 (adds : list leaf) : light H p ls -> proof_wf bp -> P_Verify H p bp ths = Ok (true, p1) -> ~ shows_collision H p1 ls ->
  size ls + size adds < 2 ^ 31 + size (m_sorted_targets bp) -> exists p', P_Modify H p1 adds (m_sorted_targets bp) = Ok (true, p').
Proof.
  assert (H62 : 2 ^ 31 + 2 ^ 31 <= 2 ^ 62) by done.
  intros [Hn HP]%light_inv Hwf E Hnc Hb. pose proof (Verify_inv H p ls bp ths HP Hn Hwf) as HV. rewrite E in HV. cbn [wp] in HV. destruct HV as (_ & _ & _ & Ht & _).
  destruct (Ht eq_refl) as [(Hv & _ & _) [Hc|[Hrd _]]]; [done|]. destruct (sizes ls _ adds Hv Hb) as [Hsz Hn'].
  destruct (P_Modify_ok H p1 ls _ adds Hrd ltac:(lia) Hv) as (q & Eq & _). by exists q.
Qed.
Lemma C84_sound_lem p ls bp ths p' : light H p ls -> proof_wf bp -> P_Verify H p bp ths = Ok (true, p') ->
  shows_collision H p' ls \/ (valid_targets (size ls) (m_sorted_targets bp) /\ ths = leaf_at ls <$> m_sorted_targets bp).
Proof.
  intros [Hn HP]%light_inv Hwf E. pose proof (Verify_inv H p ls bp ths HP Hn Hwf) as HV. rewrite E in HV. cbn [wp] in HV. destruct HV as (_ & _ & _ & Ht & _).
  destruct (Ht eq_refl) as [(Hv & _ & _) [Hc|[_ Hths]]]; [by left|by right].
Qed.
Lemma C84_accepts_lem p ls ts hs : light H p ls -> NoDup ts -> Forall (λ t, t < size ls) ts -> full_proof H ls (m_sorted_targets (BatchProof ts hs)) hs ->
  exists p', P_Verify H p (BatchProof ts hs) (leaf_at ls <$> m_sorted_targets (BatchProof ts hs)) = Ok (true, p') /\ ~ shows_collision H p' ls.
Proof.
  assert (H62 : 2 ^ 31 <= 2 ^ 62) by done.
  intros [Hn HP]%light_inv Hnd Hlt (R & ps & HR%NumRows_height & Hps & HF). subst R. pose proof (Verify_inv H p ls (BatchProof ts hs) (leaf_at ls <$> m_sorted_targets (BatchProof ts hs)) HP Hn eq_refl) as HV.
  assert (Hv : valid_targets (size ls) (m_sorted_targets (BatchProof ts hs))) by (by apply valid_sortN).
  assert (Hhon : honest (size ls) (m_sorted_targets (BatchProof ts hs)) (nh H (leaf_at ls)) (m_proof (BatchProof ts hs))) by (by exists ps).
  destruct (P_Verify H p (BatchProof ts hs) (leaf_at ls <$> m_sorted_targets (BatchProof ts hs))) as [[b p']| | | |] eqn:E; cbn [wp] in HV; try done; [|by destruct HV as [HV _]].
  destruct HV as (_ & _ & _ & _ & HV). destruct (HV Hv Hhon eq_refl) as [-> Hrd]. exists p'. split; [done|]. apply stores_no_collision, PInv_stores; [|lia]. by eapply PReady_inv.
Qed.
Lemma C84_synced_lem f p ls : synced H f p -> holds_leaves f ls -> light H p ls.
Proof.
  intros Hs. revert ls. induction Hs as [|f us p Hr E|f p bp ths b p' Hs IH (Hwf & E & Hnc)|f p p' Hs IH E|f p bp ths p1 adds f' p' Hs IH (Hwf & E & Hnc) Hb EF EP|f p adds ts f' p' Hs IH Hst Hb EF EP]; intros ls Hh.
  - assert (ls = []) as ->; [|constructor]. destruct Hh as [Hn _]. change (f_n (RamForest_new 0)) with 0 in Hn. unfold size in Hn. destruct ls; [done|]. cbn [length] in Hn. lia.
  - destruct (reachable_holds H f us ls Hr Hh) as (Hi & Hn & _). destruct Hh as [Hfn _]. rewrite Hfn, (inv_roots _ _ _ Hi) in E. eapply li_restore; [done|apply roots_of_spec|exact E].
  - eapply li_verify; [by apply IH|done|exact E|by apply Hnc].
  - eapply li_prune; [by apply IH|done].
  - destruct (synced_inv H f p Hs) as (us & ls0 & Hr & Hh0 & _). pose proof Hh0 as [Hfn _]. rewrite Hfn in Hb.
    pose proof (C03_lem H f us ls0 adds _ f' Hr Hh0 Hb (or_introl EF)) as Hh'. rewrite (holds_unique f' ls _ Hh Hh').
    eapply li_modify; [by apply IH|done|exact E|by apply Hnc|done|done].
  - destruct (synced_inv H f p Hs) as (us & ls0 & Hr & Hh0 & _). pose proof Hh0 as [Hfn _]. destruct (stored_targets H f us ls0 adds ts f' Hr Hh0 Hb EF) as [Hv _]. rewrite Hfn in Hb.
    pose proof (C03_lem H f us ls0 adds _ f' Hr Hh0 Hb (or_introl EF)) as Hh'. rewrite (holds_unique f' ls _ Hh Hh').
    eapply li_stored; [by apply IH|done| |done|done]. unfold has_nodes in Hst. by rewrite Hfn in Hst.
Qed.

(** Proofs exist. *)
Lemma full_proof_exists ls ts : size ls <= 2 ^ 62 -> valid_targets (size ls) ts -> exists hs, full_proof H ls ts hs.
Proof.
  intros Hn Hv. destruct (C21_lem (size ls) (NumRows (size ls)) ts Hn ltac:(by apply NumRows_height) Hv) as (ps & C & _ & Hps & _).
  assert (Hall : Forall (λ pos, exists r i, slot (NumRows (size ls)) r i /\ pos = enc (NumRows (size ls)) r i) ps).
  { apply Forall_forall. intros pos Hp. apply Hps in Hp as (r & i & Hs & E & _). eauto. }
  assert (Hex : exists hs, Forall2 (λ pos h, exists r i, slot (NumRows (size ls)) r i /\ pos = enc (NumRows (size ls)) r i /\ h = nh H (leaf_at ls) (N.to_nat r) i) ps hs).
  { clear Hps. induction Hall as [|pos ps (r & i & Hs & E) Hall [hs IH]]; [by exists []|]. exists (nh H (leaf_at ls) (N.to_nat r) i :: hs). constructor; [by exists r, i|done]. }
  destruct Hex as [hs Hf]. exists hs, (NumRows (size ls)), ps. split; [by apply NumRows_height|done].
Qed.
Lemma light_start (adds : list leaf) p : size adds < 2 ^ 31 -> P_Modify H (Pollard_new 0) adds [] = Ok (true, p) -> light H p adds.*1.
Proof.
  intros Hb E. change (adds.*1) with ([] ++ adds.*1). rewrite <- (spec_remove_nil []) at 1. eapply li_stored; [constructor|apply valid_nil| | |exact E].
  - intros R r i _ Hc. exfalso. destruct Hc as [(_ & t & Ht & _)|Hc]; [by apply elem_of_nil in Ht|]. destruct Hc as [(_ & t & Ht & _) _]. by apply elem_of_nil in Ht.
  - change (size (@nil hash)) with 0. change (size (@nil N)) with 0. lia.
Qed.
End Light.

(** ** Example: equal leaves *)
Definition adds84 : list leaf := [(10, true); (10, false); (10, true); (12, false)].
Definition run84 (H : hash -> hash -> hash) : res (bool * bool * N * bool) :=
  let* p := P_Modify H (Pollard_new 0) adds84 [] in
  let* q := P_Modify H p.2 [(10, false)] [1] in
  Ok (p.1, q.1, p_n p.2, stores_all p.2 [0; 1; 2; 3; 4; 5; 6]).
Lemma run84_ok : run84 ex_H = Ok (true, true, 4, true).
Proof. vm_compute. reflexivity. Qed.
Lemma forest84 : F_Modify ex_H (RamForest_new 0) adds84 [] = Abort.
Proof. vm_compute. reflexivity. Qed.
Lemma run84_inv H : run84 H = Ok (true, true, 4, true) -> exists p q, light H p [10; 10; 10; 12] /\ P_Modify H p [(10, false)] [1] = Ok (true, q) /\
  light H q (spec_remove [10; 10; 10; 12] [1] ++ [10]).
Proof.
  unfold run84. intros E. apply bind_ok in E as ([b1 p] & E1 & E). cbn [fst snd] in E. apply bind_ok in E as ([b2 q] & E2 & E). cbn [fst snd] in E. apply Ok_inv in E.
  assert (b1 = true /\ b2 = true /\ stores_all p [0; 1; 2; 3; 4; 5; 6] = true) as (-> & -> & Ef) by (split_and!; congruence). clear E.
  assert (Hl : light H p [10; 10; 10; 12]) by (by apply (light_start H adds84)). exists p, q. split; [done|]. split; [done|].
  change [10] with ([(10, false)] : list leaf).*1. eapply li_stored; [exact Hl| | | |exact E2].
  - split; [repeat constructor|by repeat constructor].
  - change (size [10; 10; 10; 12]) with 4. intros R r i HR%NumRows_height Hc. change (NumRows 4) with 2 in HR. subst R.
    assert (Hnode : node 4 r i) by (destruct Hc as [[Hc _]|Hc%needed_node]; done).
    unfold stores_all in Ef. rewrite forallb_forall in Ef. specialize (Ef (enc 2 r i)). destruct (P_Read p (enc 2 r i)) as [[v|]| | | |]; [by exists v|..]; exfalso; (enough (false = true) by done); apply Ef, elem_of_list_In, below_seven, enc_seven, Hnode.
  - done.
Qed.
