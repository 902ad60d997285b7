(** * AcceptFacts: exactly which proofs Verify accepts (proofs) *)
From stdpp Require Import sorting.
From Verif Require Import Base StateModel CodecModel ForestModel PollardModel PosSpec PosFacts PathFacts ProofSpec TakeFacts VerifySpec MerkleSpec ForestSpec ForestInv ForestFacts ProveFacts HistFacts PosmapFacts
  PollardSpec PollardRep PollardOps PollardAdd PollardRemove PollardRows PollardInit PollardCreate PollardVerify PollardVerifyMain PollardPrune PollardHist PollardProps PollardRecall ForestExamples PollardExamples BindFacts UniqueFacts.
From Coq Require Import ZifyBool ZifyNat ZifyN.
Ltac Zify.zify_post_hook ::= idtac.

Lemma Forall2_rev2 {A B} (P : A -> B -> Prop) l k : Forall2 P l k -> Forall2 P (rev l) (rev k).
Proof. induction 1 as [|x y l k Hx _ IH]; cbn [rev]; [constructor|]. apply Forall2_app; [done|]. by repeat constructor. Qed.
(** Reading a list of positions, in the reverse order. *)
Lemma read_rev {A B} (F : N -> res B) (E : A -> N) (G : A -> B) ps l (st : list B) : rev ps = E <$> l -> (forall x, x ∈ l -> F (E x) = Ok (G x)) ->
  Forall2 (fun q x => F q = Ok x) ps st <-> rev st = G <$> l.
Proof.
  intros Ep HF. split.
  - intros Hf. apply Forall2_rev2 in Hf. rewrite Ep in Hf. revert HF Hf. clear. generalize (rev st). intros k HF Hf. apply Forall2_fmap_l in Hf.
    induction Hf as [|x y l k Hx _ IH]; [done|]. cbn [fmap list_fmap]. change (F (E x) = Ok y) in Hx. rewrite (HF x) in Hx by left. apply Ok_inv in Hx as <-. f_equal. apply IH.
    intros z Hz. apply HF. by right.
  - intros Es. rewrite <- (rev_involutive ps), <- (rev_involutive st). apply Forall2_rev2. rewrite Ep, Es. apply Forall2_fmap, Forall_Forall2_diag, Forall_forall. exact HF.
Qed.

Section Accept.
Context (H : hash -> hash -> hash).
Notation bel ls ts := (belowp (size ls) ts (S (N.to_nat (NumRows (size ls))))).
Notation encx ls := (λ x : nat * N, enc (NumRows (size ls)) (N.of_nat x.1) x.2).

Lemma bel_node (ls : list hash) ts x : x ∈ bel ls ts -> node (size ls) (N.of_nat x.1) x.2.
Proof. destruct x as [r i]. intros [_ Hx]%belowp_elem. cbn [fst snd]. by eapply needed_node. Qed.
Lemma sto_read p (ls : list hash) L0 M0 ts : size ls <= 2 ^ 62 -> p_n p = size ls -> rep p (trees (size ls)) L0 M0 -> agree p (trees (size ls)) L0 (nh H (leaf_at ls)) ->
  forall x, x ∈ bel ls ts -> P_Read p (encx ls x) = Ok (sto L0 (nh H (leaf_at ls)) x).
Proof.
  intros Hn Hpn HR Hg x Hx%bel_node. cbn beta. rewrite (P_Read_ok (size ls) Hn p L0 M0 _ _ Hpn HR Hx). unfold sto. destruct (L0 x.1 x.2) as [l|] eqn:El; cbn [pres1 fmap option_fmap option_map]; [|done].
  do 2 f_equal. apply Hg; [by apply trees_under|done].
Qed.
Lemma gx_read f (ls : list hash) ts : inv H f ls -> size ls <= 2 ^ 62 -> forall x, x ∈ bel ls ts -> F_Read f (encx ls x) = Ok (gx (nh H (leaf_at ls)) x).
Proof. intros Hi Hn x Hx%bel_node. cbn beta. rewrite (inv_read H f ls _ _ Hi Hn Hx). by rewrite Nat2N.id. Qed.

Lemma fills_iff f p (ls : list hash) L0 M0 ts prf : inv H f ls -> size ls <= 2 ^ 62 -> p_n p = size ls -> rep p (trees (size ls)) L0 M0 -> agree p (trees (size ls)) L0 (nh H (leaf_at ls)) ->
  valid_targets (size ls) ts -> fills f p ts prf <-> hon (size ls) ts L0 (nh H (leaf_at ls)) prf.
Proof.
  intros Hi Hn Hpn HR Hg Hts. pose proof (sto_read p ls L0 M0 ts Hn Hpn HR Hg) as Hs. pose proof (gx_read f ls ts Hi Hn) as Hx. unfold fills, hon. rewrite Hpn. split.
  - intros (R & ps & st & hs & HhR & Hps & H1 & H2 & Ht). apply NumRows_height in HhR as <-. pose proof (needed_rev _ Hn _ _ Hps) as Er.
    rewrite (proj1 (read_rev _ _ _ _ _ _ Er Hs) H1), (proj1 (read_rev _ _ _ _ _ _ Er Hx) H2) in Ht. exact Ht.
  - intros Ht. destruct (ProofPositions_ok (size ls) Hn ts Hts) as (P & C & _ & HP & _). pose proof (needed_rev _ Hn _ _ HP) as Er.
    exists (NumRows (size ls)), P, (rev (sto L0 (nh H (leaf_at ls)) <$> bel ls ts)), (rev (gx (nh H (leaf_at ls)) <$> bel ls ts)).
    split; [by apply NumRows_height|]. split; [done|]. split; [apply (read_rev _ _ _ _ _ _ Er Hs), rev_involutive|]. split; [apply (read_rev _ _ _ _ _ _ Er Hx), rev_involutive|].
    by rewrite !rev_involutive.
Qed.
Lemma overruns_iff p (ls : list hash) L0 M0 ts prf : size ls <= 2 ^ 62 -> p_n p = size ls -> rep p (trees (size ls)) L0 M0 -> agree p (trees (size ls)) L0 (nh H (leaf_at ls)) ->
  valid_targets (size ls) ts -> overruns p ts prf <-> halt (size ls) ts L0 (nh H (leaf_at ls)) prf (Some zero_hash).
Proof.
  intros Hn Hpn HR Hg Hts. pose proof (sto_read p ls L0 M0 ts Hn Hpn HR Hg) as Hs. unfold overruns, halt. rewrite Hpn. split.
  - intros (R & ps & st & HhR & Hps & H1 & Ht). apply NumRows_height in HhR as <-. pose proof (needed_rev _ Hn _ _ Hps) as Er.
    rewrite (proj1 (read_rev _ _ _ _ _ _ Er Hs) H1) in Ht. exact Ht.
  - intros Ht. destruct (ProofPositions_ok (size ls) Hn ts Hts) as (P & C & _ & HP & _). pose proof (needed_rev _ Hn _ _ HP) as Er.
    exists (NumRows (size ls)), P, (rev (sto L0 (nh H (leaf_at ls)) <$> bel ls ts)).
    split; [by apply NumRows_height|]. split; [done|]. split; [apply (read_rev _ _ _ _ _ _ Er Hs), rev_involutive|]. by rewrite rev_involutive.
Qed.

(** Verify of a proof with the right hashes returns true. *)
Lemma accepts_inv' f us ls p bp ths L0 M0 : reachable H f us -> holds_leaves f ls -> size ls < 2 ^ 31 -> p_n p = size ls -> rep p (trees (size ls)) L0 M0 -> agree p (trees (size ls)) L0 (nh H (leaf_at ls)) ->
  proof_wf bp -> valid_targets (size ls) (m_sorted_targets bp) -> ths = leaf_at ls <$> m_sorted_targets bp -> hon (size ls) (m_sorted_targets bp) L0 (nh H (leaf_at ls)) (m_proof bp) ->
  exists p', P_Verify H p bp ths = Ok (true, p').
Proof.
  intros Hr Hh Hn31 Hpn HR0 Hg0 Hwf Hts Hths Hf.
  assert (Hmax : int_max + 1 = 2 ^ 31) by done. assert (Hn : size ls <= 2 ^ 62) by (assert (2 ^ 31 <= 2 ^ 62) by done; lia).
  pose proof (Verify_ok H (size ls) Hn p L0 M0 (nh H (leaf_at ls)) Hpn HR0 Hg0 (nh_step H (size ls) ls) bp ths ltac:(lia) Hwf) as HV.
  destruct (P_Verify H p bp ths) as [[b p']| | | |]; cbn [wp] in HV; try done.
  - destruct HV as (_ & _ & Hb & _). rewrite (Hb Hts Hf Hths). by exists p'.
  - destruct HV as (_ & _ & Hnh & _). done.
Qed.
Lemma C76_accepts_lem f p bp ths ls : synced H f p -> holds_leaves f ls -> proof_wf bp ->
  valid_targets (size ls) (m_sorted_targets bp) -> ths = leaf_at ls <$> m_sorted_targets bp -> fills f p (m_sorted_targets bp) (m_proof bp) ->
  exists p', P_Verify H p bp ths = Ok (true, p').
Proof.
  intros Hs Hh Hwf Hts Hths Hf. destruct (synced_holds H f p ls Hs Hh) as (us & Hr & Hn31 & (Hpn & L0 & M0 & HR0 & Hg0) & _).
  assert (Hn : size ls <= 2 ^ 62) by (assert (2 ^ 31 <= 2 ^ 62) by done; lia).
  destruct (reachable_holds H f us ls Hr Hh) as (Hi & _). apply (fills_iff f p ls L0 M0 _ _ Hi Hn Hpn HR0 Hg0 Hts) in Hf.
  by apply (accepts_inv' f us ls p bp ths L0 M0).
Qed.
(** Only such proofs are accepted. *)
Lemma C76_only_lem f p bp ths p' ls : synced H f p -> holds_leaves f ls -> proof_wf bp -> P_Verify H p bp ths = Ok (true, p') ->
  shows_collision H p' ls \/ (valid_targets (size ls) (m_sorted_targets bp) /\ ths = leaf_at ls <$> m_sorted_targets bp /\ fills f p (m_sorted_targets bp) (m_proof bp)).
Proof.
  intros Hs Hh Hwf E. destruct (synced_holds H f p ls Hs Hh) as (us & Hr & Hn31 & (Hpn & L0 & M0 & HR0 & Hg0) & _).
  assert (Hn : size ls <= 2 ^ 62) by (assert (2 ^ 31 <= 2 ^ 62) by done; lia).
  destruct (reachable_holds H f us ls Hr Hh) as (Hi & _).
  destruct (accepted_takes H p ls bp ths p' L0 M0 Hpn HR0 Hg0 Hn31 Hwf E) as [Hc|(Hv & Ht & Htk)]; [by left|right].
  split; [done|]. split; [done|]. by apply (fills_iff f p ls L0 M0 _ _ Hi Hn Hpn HR0 Hg0 Hv).
Qed.
(** Verify fails exactly when the proof runs out at a stored zero hash. *)
Lemma C40_exact_lem f p bp ths ls : synced H f p -> holds_leaves f ls -> proof_wf bp ->
  let bad := valid_targets (size ls) (m_sorted_targets bp) /\ length ths = length (m_sorted_targets bp) /\ overruns p (m_sorted_targets bp) (m_proof bp) in
  (P_Verify H p bp ths = UB <-> bad) /\ (~ bad <-> exists b p', P_Verify H p bp ths = Ok (b, p')).
Proof.
  intros Hs Hh Hwf bad. destruct (synced_holds H f p ls Hs Hh) as (us & Hr & Hn31 & (Hpn & L0 & M0 & HR0 & Hg0) & _).
  assert (Hmax : int_max + 1 = 2 ^ 31) by done. assert (Hn : size ls <= 2 ^ 62) by (assert (2 ^ 31 <= 2 ^ 62) by done; lia).
  pose proof (Verify_ok H (size ls) Hn p L0 M0 (nh H (leaf_at ls)) Hpn HR0 Hg0 (nh_step H (size ls) ls) bp ths ltac:(lia) Hwf) as HV.
  destruct (P_Verify H p bp ths) as [[b p']| | | |]; cbn [wp] in HV; try done.
  - destruct HV as (_ & _ & _ & Hnh). assert (Hb : ~ bad).
    { intros (Hts & Hlen & Ho). apply (Hnh Hts Hlen). by apply (overruns_iff p ls L0 M0 _ _ Hn Hpn HR0 Hg0 Hts). }
    split; [split; [done|intros ?; by exfalso]|]. split; [intros _; by exists b, p'|done].
  - destruct HV as (Hts & Hlen & _ & _ & Hh'). assert (Hb : bad).
    { split; [done|]. split; [done|]. by apply (overruns_iff p ls L0 M0 _ _ Hn Hpn HR0 Hg0 Hts). }
    split; [split; [intros _; exact Hb|done]|]. split; [done|]. by intros (? & ? & ?).
Qed.

(** *** A pollard that stores more accepts no less. *)
Lemma hon_more p p' (ls : list hash) L M L' M' ts prf : size ls <= 2 ^ 62 -> p_n p = size ls -> rep p (trees (size ls)) L M -> agree p (trees (size ls)) L (nh H (leaf_at ls)) ->
  p_n p' = size ls -> rep p' (trees (size ls)) L' M' -> agree p' (trees (size ls)) L' (nh H (leaf_at ls)) -> stores_more p p' ->
  hon (size ls) ts L (nh H (leaf_at ls)) prf -> hon (size ls) ts L' (nh H (leaf_at ls)) prf.
Proof.
  intros Hn Hpn HR Hg Hpn' HR' Hg' [_ Hm] Ht. pose proof (sto_read p ls L M ts Hn Hpn HR Hg) as Hs. pose proof (sto_read p' ls L' M' ts Hn Hpn' HR' Hg') as Hs'.
  unfold hon in *. eapply takes_more; [exact Ht| |].
  - apply Forall2_fmap, Forall_Forall2_diag, Forall_forall. intros x Hx. destruct (sto L (nh H (leaf_at ls)) x) as [h|] eqn:E; [right|by left].
    specialize (Hs x Hx). specialize (Hs' x Hx). rewrite E in Hs. rewrite Hpn in Hm.
    rewrite (Hm (NumRows (size ls)) (N.of_nat x.1) x.2 h) in Hs'; [by apply Ok_inv in Hs'|by apply NumRows_height|by apply (bel_node _ ts)|exact Hs].
  - apply Forall2_fmap, Forall_Forall2_diag, Forall_forall. intros x _. unfold sto, gx. destruct (pres1 _); [by right|by left].
Qed.
Lemma C58_more_lem f p1 p2 bp ths p1' ls : synced H f p1 -> synced H f p2 -> holds_leaves f ls -> stores_more p1 p2 -> proof_wf bp -> P_Verify H p1 bp ths = Ok (true, p1') ->
  shows_collision H p1' ls \/ exists p2', P_Verify H p2 bp ths = Ok (true, p2').
Proof.
  intros Hs1 Hs2 Hh Hm Hwf E. destruct (C76_only_lem f p1 bp ths p1' ls Hs1 Hh Hwf E) as [?|(Hv & Ht & Hf)]; [by left|right].
  apply (C76_accepts_lem f p2 bp ths ls); try done.
  destruct (synced_holds H f p1 ls Hs1 Hh) as (us & Hr & Hn31 & (Hpn & L & M & HR & Hg) & _). destruct (synced_holds H f p2 ls Hs2 Hh) as (_ & _ & _ & (Hpn' & L' & M' & HR' & Hg') & _).
  assert (Hn : size ls <= 2 ^ 62) by (assert (2 ^ 31 <= 2 ^ 62) by done; lia). destruct (reachable_holds H f us ls Hr Hh) as (Hi & _).
  apply (fills_iff f p2 ls L' M' _ _ Hi Hn Hpn' HR' Hg' Hv). apply (fills_iff f p1 ls L M _ _ Hi Hn Hpn HR Hg Hv) in Hf.
  exact (hon_more p1 p2 ls L M L' M' _ _ Hn Hpn HR Hg Hpn' HR' Hg' Hm Hf).
Qed.
(** Verify forgets nothing, and a rejected proof adds nothing. *)
Lemma verify_more f p bp ths b p' : synced H f p -> proof_wf bp -> P_Verify H p bp ths = Ok (b, p') -> stores_more p p' /\ (b = false -> stores_more p' p).
Proof.
  intros Hs Hwf E. destruct (synced_inv H f p Hs) as (us & ls & Hr & Hh & Hn31 & (Hpn & L0 & M0 & HR0 & Hg0)).
  assert (Hmax : int_max + 1 = 2 ^ 31) by done. assert (Hn : size ls <= 2 ^ 62) by (assert (2 ^ 31 <= 2 ^ 62) by done; lia).
  pose proof (Verify_ok H (size ls) Hn p L0 M0 (nh H (leaf_at ls)) Hpn HR0 Hg0 (nh_step H (size ls) ls) bp ths ltac:(lia) Hwf) as HV.
  rewrite E in HV. cbn [wp] in HV. destruct HV as (Hf & Ht & _).
  assert (Hread : forall q q' L M L' M', p_n q = size ls -> rep q (trees (size ls)) L M -> p_n q' = size ls -> rep q' (trees (size ls)) L' M' ->
    agree q (trees (size ls)) L (nh H (leaf_at ls)) -> agree q' (trees (size ls)) L (nh H (leaf_at ls)) -> (forall r i l, L r i = Some l -> L' r i = Some l) -> stores_more q q').
  { intros q q' L M L' M' E1 R1 E2 R2 A1 A2 Hsub. split; [congruence|]. intros R r i h HhR Hi Hq. rewrite E1 in HhR, Hi. apply NumRows_height in HhR as <-.
    rewrite <- (N2Nat.id r) in Hq, Hi |- *. rewrite (P_Read_ok (size ls) Hn q L M _ _ E1 R1 Hi) in Hq. rewrite (P_Read_ok (size ls) Hn q' L' M' _ _ E2 R2 Hi).
    apply Ok_inv in Hq. apply fmap_Some in Hq as (l & El & ->). rewrite (Hsub _ _ _ El). cbn [fmap option_fmap option_map]. apply trees_under in Hi. by rewrite (A1 _ _ _ Hi El), (A2 _ _ _ Hi El). }
  destruct b.
  - split; [|done]. destruct (Ht eq_refl) as (E1 & _ & _ & _ & L & M & HR & Hsub & _ & Hag & _). by apply (Hread p p' L0 M0 L M).
  - destruct (Hf eq_refl) as (E1 & _ & M & _ & HR & Hag & _). split; [by apply (Hread p p' L0 M0 L0 M)|]. intros _. by apply (Hread p' p L0 M L0 M0).
Qed.
Lemma C77_lem f p bp ths b p' bq thq q ls : synced H f p -> holds_leaves f ls -> verifies H f p bp ths b p' -> proof_wf bq -> P_Verify H p bq thq = Ok (true, q) ->
  shows_collision H q ls \/ exists q', P_Verify H p' bq thq = Ok (true, q').
Proof.
  intros Hs Hh Hv Hwf E. pose proof Hv as (Hwf' & E' & _). destruct (verify_more f p bp ths b p' Hs Hwf' E') as [Hm _].
  apply (C58_more_lem f p p' bq thq q ls); try done. by eapply sy_verify.
Qed.
Lemma C77_again_lem f p bp ths p' ls : synced H f p -> holds_leaves f ls -> proof_wf bp -> P_Verify H p bp ths = Ok (true, p') ->
  shows_collision H p' ls \/ exists p'', P_Verify H p' bp ths = Ok (true, p'').
Proof.
  intros Hs Hh Hwf E. destruct (C76_only_lem f p bp ths p' ls Hs Hh Hwf E) as [?|(Hv & Ht & Hf)]; [by left|].
  destruct (synced_holds H f p ls Hs Hh) as (us & Hr & Hn31 & HP & _).
  pose proof (Verify_inv H p ls bp ths HP Hn31 Hwf) as HV. rewrite E in HV. cbn [wp] in HV. destruct HV as (_ & _ & _ & Hb & _).
  destruct (Hb eq_refl) as [_ [?|[Hrd _]]]; [by left|right]. pose proof HP as (Hpn & L & M & HR & Hg). destruct Hrd as (Hpn' & L' & M' & HR' & Hg' & _).
  assert (Hn : size ls <= 2 ^ 62) by (assert (2 ^ 31 <= 2 ^ 62) by done; lia). destruct (reachable_holds H f us ls Hr Hh) as (Hi & _).
  apply (fills_iff f p ls L M _ _ Hi Hn Hpn HR Hg Hv) in Hf. destruct (verify_more f p bp ths true p' Hs Hwf E) as [Hm _].
  pose proof (hon_more p p' ls L M L' M' _ _ Hn Hpn HR Hg Hpn' HR' Hg' Hm Hf) as Hf'. apply (accepts_inv' f us ls p' bp ths L' M'); done.
Qed.
Lemma C77_reject_lem f p bp ths p' bq thq ls : synced H f p -> holds_leaves f ls -> verifies H f p bp ths false p' -> proof_wf bq ->
  (P_Verify H p' bq thq = UB <-> P_Verify H p bq thq = UB) /\
  forall b q b' q', P_Verify H p bq thq = Ok (b, q) -> P_Verify H p' bq thq = Ok (b', q') -> b = b' \/ shows_collision H q ls \/ shows_collision H q' ls.
Proof.
  intros Hs Hh Hv Hwf. pose proof Hv as (Hwf' & E' & _). destruct (verify_more f p bp ths false p' Hs Hwf' E') as [Hm Hm']. specialize (Hm' eq_refl).
  assert (Hs' : synced H f p') by (by eapply sy_verify). split.
  - destruct (C40_exact_lem f p bq thq ls Hs Hh Hwf) as [Hx _], (C40_exact_lem f p' bq thq ls Hs' Hh Hwf) as [Hy _]. rewrite Hx, Hy.
    destruct (synced_holds H f p ls Hs Hh) as (us & Hr & Hn31 & (Hpn & L & M & HR & Hg) & _). destruct (synced_holds H f p' ls Hs' Hh) as (_ & _ & _ & (Hpn' & L' & M' & HR' & Hg') & _).
    assert (Hn : size ls <= 2 ^ 62) by (assert (2 ^ 31 <= 2 ^ 62) by done; lia).
    assert (Hov : valid_targets (size ls) (m_sorted_targets bq) -> overruns p' (m_sorted_targets bq) (m_proof bq) <-> overruns p (m_sorted_targets bq) (m_proof bq)).
    { intros Hts. rewrite (overruns_iff p ls L M _ _ Hn Hpn HR Hg Hts), (overruns_iff p' ls L' M' _ _ Hn Hpn' HR' Hg' Hts). unfold halt.
      rewrite (list_fmap_ext (sto L' (nh H (leaf_at ls))) (sto L (nh H (leaf_at ls))) (bel ls (m_sorted_targets bq))); [done|].
      intros k x Hx'%elem_of_list_lookup_2. pose proof (sto_read p ls L M _ Hn Hpn HR Hg x Hx') as S1. pose proof (sto_read p' ls L' M' _ Hn Hpn' HR' Hg' x Hx') as S2. cbn beta in S1, S2.
      pose proof (bel_node _ _ _ Hx') as Hnd. destruct Hm as [_ Hm], Hm' as [_ Hm']. rewrite Hpn in Hm. rewrite Hpn' in Hm'.
      assert (HR62 : is_height (size ls) (NumRows (size ls))) by (by apply NumRows_height).
      destruct (sto L (nh H (leaf_at ls)) x) as [h|] eqn:E1.
      - rewrite (Hm _ _ _ _ HR62 Hnd S1) in S2. by apply Ok_inv in S2.
      - destruct (sto L' (nh H (leaf_at ls)) x) as [h|] eqn:E2; [|done]. rewrite (Hm' _ _ _ _ HR62 Hnd S2) in S1. by apply Ok_inv in S1. }
    split; intros (H1 & H2 & H3); (split; [done|]; split; [done|]); by apply Hov.
  - intros b q b' q' E1 E2. destruct b, b'; [by left| | |by left].
    + destruct (C58_more_lem f p p' bq thq q ls Hs Hs' Hh Hm Hwf E1) as [?|[q'' E3]]; [by right; left|]. congruence.
    + destruct (C58_more_lem f p' p bq thq q' ls Hs' Hs Hh Hm' Hwf E2) as [?|[q'' E3]]; [by right; right|]. congruence.
Qed.
End Accept.
