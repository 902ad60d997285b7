(** * SpentFacts: deleted leaves, and the order of the hashes of a proof (proofs) *)
From stdpp Require Import sorting.
From Verif Require Import Base StateModel CodecModel ForestModel PollardModel PosSpec PosFacts PosmapFacts MerkleSpec TargetFacts ForestFacts RowFacts SpecFacts RemoveFacts ForestInv ForestSpec HistFacts
  ProofSpec ProveFacts PollardSpec PollardRemove PollardHist PollardProps ForestExamples PollardExamples SpentSpec TwinFacts.
From Coq Require Import ZifyBool ZifyNat ZifyN.
Ltac Zify.zify_post_hook ::= idtac.

Section Spent.
Context (H : hash -> hash -> hash).
Implicit Types (f : forest) (p : pollard) (ls : list hash).

(** ** Deleted leaves *)
Lemma reachable_leaves f us : reachable H f us -> exists ls, holds_leaves f ls.
Proof. intros Hr. destruct (C01_lem H f us Hr) as (ls & Hh & _). by exists ls. Qed.
Lemma later_reachable f us s f' : reachable H f us -> later H f s f' -> exists us', reachable H f' us'.
Proof.
  intros Hr Hl. induction Hl as [f|f s f1 adds ts f' Hl IH Hb E|f s f1 adds ts u f' Hl IH Hb E|f s f1 old bytes f' Hl IH HH Hfit E1 E2]; [by exists us|..]; destruct (IH Hr) as [us' Hr'].
  - exists []. by eapply reach_modify.
  - eexists. by eapply reach_modify_undo.
  - exists []. by eapply reach_reopen.
Qed.
Lemma later_leaves f us ls s f' ls' h : reachable H f us -> holds_leaves f ls -> later H f s f' -> holds_leaves f' ls' -> h ∈ ls' -> h ∈ ls \/ h ∈ s.
Proof.
  intros Hr Hh Hl. revert ls'. induction Hl as [f|f s f1 adds ts f' Hl IH Hb E|f s f1 adds ts u f' Hl IH Hb E|f s f1 old bytes f' Hl IH HH Hfit E1 E2]; intros ls' Hh' Hin.
  - left. by rewrite (holds_unique f ls ls' Hh Hh').
  - destruct (later_reachable f us s f1 Hr Hl) as [us1 Hr1]. destruct (reachable_leaves f1 us1 Hr1) as [ls1 Hh1]. pose proof Hh1 as [Hn1 _]. rewrite Hn1 in Hb.
    destruct (C02_lem H f1 us1 ls1 adds ts f' Hr1 Hh1 Hb ltac:(by left)) as (_ & ls2 & Hh2 & Hp & _). rewrite (holds_unique f' ls' ls2 Hh' Hh2), Hp in Hin.
    rewrite elem_of_app. apply elem_of_app in Hin as [Hin%survivors_elem|Hin]; [|by right; right]. destruct (IH Hr Hh ls1 Hh1 Hin); [by left|right; by left].
  - destruct (later_reachable f us s f1 Hr Hl) as [us1 Hr1]. destruct (reachable_leaves f1 us1 Hr1) as [ls1 Hh1]. pose proof Hh1 as [Hn1 _]. rewrite Hn1 in Hb.
    destruct (C02_lem H f1 us1 ls1 adds ts f' Hr1 Hh1 Hb ltac:(right; eexists; exact E)) as (_ & ls2 & Hh2 & Hp & _). rewrite (holds_unique f' ls' ls2 Hh' Hh2), Hp in Hin.
    rewrite elem_of_app. apply elem_of_app in Hin as [Hin%survivors_elem|Hin]; [|by right; right]. destruct (IH Hr Hh ls1 Hh1 Hin); [by left|right; by left].
  - destruct (later_reachable f us s f1 Hr Hl) as [us1 Hr1]. destruct (reachable_leaves f1 us1 Hr1) as [ls1 Hh1]. apply (IH Hr Hh ls1 Hh1).
    destruct (C10_lem H f1 us1 old Hr1 HH Hfit) as (bytes' & f2 & E1' & E2' & Hs). assert (bytes' = bytes) as -> by congruence. assert (f2 = f') as -> by congruence.
    assert (Hh2 : holds_leaves f' ls1).
    { apply (same_leaves H f1 f'); [done|done|]. destruct (reachable_holds H f1 us1 ls1 Hr1 Hh1) as (_ & Hn & _). assert (2 ^ 31 <= 2 ^ 62) by done. lia. }
    by rewrite <- (holds_unique f' ls' ls1 Hh' Hh2).
Qed.
Lemma deleted_leaf f us ls (adds : list leaf) ts f1 ls1 t h : reachable H f us -> holds_leaves f ls -> t ∈ ts -> F_GetLeaf f t = Ok h ->
  f_n f + size adds < 2 ^ 31 + size ts -> F_Modify H f adds ts = Ok (true, f1) -> holds_leaves f1 ls1 -> h ∈ ls1 -> h ∈ adds.*1.
Proof.
  intros Hr Hh Ht Eg Hb E Hh1 Hin. pose proof Hh as [Hn Hg]. rewrite Hn in Hb. destruct (C02_lem H f us ls adds ts f1 Hr Hh Hb ltac:(by left)) as (Hv & ls2 & Hh2 & Hp & _).
  rewrite (holds_unique f1 ls1 ls2 Hh1 Hh2), Hp in Hin. apply elem_of_app in Hin as [Hin|Hin]; [|done]. exfalso.
  apply survivors_iff in Hin as (i & Hi & Hni & Ei). destruct Hv as [_ Hlt]. rewrite Forall_forall in Hlt. specialize (Hlt t Ht).
  rewrite Hg in Eg by done. apply Ok_inv in Eg. destruct (reachable_holds H f us ls Hr Hh) as (Hinv & _). pose proof (inv_NoDup H f ls Hinv) as Hnd.
  assert (i = t) as ->; [|done]. apply (leaf_at_inj ls i t Hnd Hi Hlt). congruence.
Qed.
Lemma C82_lem f us (adds : list leaf) ts f1 t h s f2 : reachable H f us -> t ∈ ts -> F_GetLeaf f t = Ok h -> f_n f + size adds < 2 ^ 31 + size ts ->
  F_Modify H f adds ts = Ok (true, f1) -> h ∉ adds.*1 -> later H f1 s f2 -> h ∉ s ->
  (forall hs, h ∈ hs -> F_Prove f2 hs = Ok None) /\
  forall p bp ths p' ls, synced H f2 p -> holds_leaves f2 ls -> proof_wf bp -> h ∈ ths -> P_Verify H p bp ths = Ok (true, p') -> shows_collision H p' ls.
Proof.
  intros Hr Ht Eg Hb E Ha Hl Hs. destruct (reachable_leaves f us Hr) as [ls0 Hh0]. assert (Hr1 : reachable H f1 []) by (by eapply reach_modify).
  destruct (reachable_leaves f1 [] Hr1) as [ls1 Hh1]. destruct (later_reachable f1 [] s f2 Hr1 Hl) as [us2 Hr2].
  assert (Hgone : forall ls2, holds_leaves f2 ls2 -> h ∉ ls2).
  { intros ls2 Hh2 Hin. destruct (later_leaves f1 [] ls1 s f2 ls2 h Hr1 Hh1 Hl Hh2 Hin) as [Hin1|?]; [|done]. by apply Ha, (deleted_leaf f us ls0 adds ts f1 ls1 t h). }
  split.
  - intros hs Hin. destruct (reachable_leaves f2 us2 Hr2) as [ls2 Hh2]. destruct (reachable_holds H f2 us2 ls2 Hr2 Hh2) as (_ & Hn2 & _). pose proof Hh2 as [Hfn _].
    assert (H62 : 2 ^ 31 <= 2 ^ 62) by done. destruct (C06_lem H f2 us2 ls2 hs (NumRows (f_n f2)) Hr2 Hh2) as [Hno _]; [by apply NumRows_height|].
    apply Hno. intros [_ Hall]. by apply (Hgone ls2 Hh2), Hall.
  - intros p bp ths p' ls Hsy Hh2 Hwf Hin EV. destruct (C27_lem H f2 p bp ths p' ls Hsy Hh2 Hwf EV) as [Hc|Hf]; [done|]. exfalso.
    apply elem_of_list_lookup in Hin as [k Hk]. eapply Forall2_lookup_r in Hf as (x & _ & Hlt & Eg2); [|exact Hk]. pose proof Hh2 as [Hn2 Hg2]. rewrite Hn2 in Hlt.
    rewrite Hg2 in Eg2 by done. apply Ok_inv in Eg2. apply (Hgone ls Hh2). rewrite <- Eg2. unfold leaf_at. apply elem_of_list_lookup_total_2. unfold size in Hlt. lia.
Qed.

(** ** The order of the hashes *)
Lemma prove_facts f us ls hs bp : reachable H f us -> holds_leaves f ls -> F_Prove f hs = Ok (Some bp) -> proof_wf bp /\ Forall2 (λ h t, t < f_n f /\ F_GetLeaf f t = Ok h) hs (m_targets bp) /\ NoDup (m_targets bp).
Proof.
  intros Hr Hh EF. pose proof Hh as [Hfn Hg]. destruct (reachable_holds H f us ls Hr Hh) as (_ & Hn & _). assert (H62 : 2 ^ 31 <= 2 ^ 62) by done.
  assert (HhR : is_height (f_n f) (NumRows (f_n f))) by (by apply NumRows_height).
  destruct (C06_lem H f us ls hs _ Hr Hh HhR) as [Hbad Hgood].
  destruct (decide (NoDup hs /\ Forall (λ h, h ∈ ls) hs)) as [[Hnd Hin]|Hx].
  2: { rewrite Hbad in EF; [done|]. intros [Hnd Hin]. apply Hx. split; [done|]. by apply Forall_forall. }
  rewrite Forall_forall in Hin. destruct (Hgood Hnd Hin) as (bp' & ps & EF' & HF & Hperm & Hsrt & _). rewrite EF' in EF. injection EF as ->.
  split; [|split; [done|]].
  - unfold F_Prove in EF'. destruct (lookup_all (f_posmap f) hs) as [ts|]; [|done].
    destruct (CheckTargetsSanity (f_n f) (sortN ts)) as [b| | | |]; cbn [bind] in EF'; try done. destruct b; cbn [negb] in EF'; [|done].
    destruct (ProofPositions (f_n f) (sortN ts)) as [pp| | | |]; cbn [bind] in EF'; try done.
    destruct (int_loop (size pp.1)) as [[]| | | |]; cbn [bind] in EF'; try done.
    destruct (mapM_ (F_Read f) pp.1) as [hh| | | |]; cbn [bind] in EF'; try done. by injection EF' as <-.
  - rewrite <- Hperm. by apply sorted_lt_NoDup.
Qed.
Lemma C83_exact_lem f p hs bp : synced H f p -> F_Prove f hs = Ok (Some bp) ->
  (StronglySorted N.lt (m_targets bp) -> exists p', P_Verify H p bp hs = Ok (true, p')) /\
  (forall p' ls, holds_leaves f ls -> P_Verify H p bp hs = Ok (true, p') -> shows_collision H p' ls \/ StronglySorted N.lt (m_targets bp)).
Proof.
  intros Hs EF. destruct (synced_inv H f p Hs) as (us & ls & Hr & Hh & Hn & HP). destruct (prove_facts f us ls hs bp Hr Hh EF) as (Hwf & HF & Hnd). split.
  - intros Hsrt. assert (Es : m_sorted_targets bp = m_targets bp) by (rewrite Hwf; by apply sortN_id).
    destruct (C26_lem H f p hs bp hs Hs EF) as (p' & E & _); [|by exists p']. rewrite Es. apply Forall2_flip. eapply Forall2_impl; [exact HF|]. by intros h t [_ ?].
  - intros p' ls' Hh' E. destruct (C27_lem H f p bp hs p' ls' Hs Hh' Hwf E) as [Hc|Hf]; [by left|right].
    assert (Es : m_targets bp = m_sorted_targets bp).
    { clear E Hwf Hnd EF. apply Forall2_flip in Hf. destruct (reachable_holds H f us ls Hr Hh) as (Hinv & _). pose proof (inv_NoDup H f ls Hinv) as Hnl. destruct Hh as [Hfn Hg].
      revert Hf. generalize (m_sorted_targets bp) as ts. induction HF as [|h t hs ts0 [Ht Et] HF IH]; intros ts Hf.
      - by inversion Hf.
      - inversion Hf as [|? t' ? ts' [Ht' Et'] Hf' E1 E2]; subst. f_equal; [|by apply IH]. rewrite Hfn in *. rewrite Hg in Et, Et' by done. apply (leaf_at_inj ls t t' Hnl Ht Ht'). congruence. }
    rewrite Es, Hwf. apply sorted_le_lt; [apply sortN_sorted|]. by rewrite sortN_perm.
Qed.
Lemma C83_sorted_lem f p hs bp : synced H f p -> F_Prove f hs = Ok (Some bp) -> exists ths p', ths ≡ₚ hs /\ P_Verify H p bp ths = Ok (true, p').
Proof.
  intros Hs EF. destruct (synced_inv H f p Hs) as (us & ls & Hr & Hh & Hn & HP). destruct (prove_facts f us ls hs bp Hr Hh EF) as (Hwf & HF & Hnd).
  pose proof Hh as [Hfn Hg]. assert (Eh : hs = leaf_at ls <$> m_targets bp).
  { clear - HF Hfn Hg. induction HF as [|h t hs ts [Ht Et] HF IH]; [done|]. rewrite fmap_cons, <- IH. f_equal. rewrite Hfn in Ht. rewrite Hg in Et by done. apply Ok_inv in Et. done. }
  exists (leaf_at ls <$> m_sorted_targets bp). destruct (C26_lem H f p hs bp (leaf_at ls <$> m_sorted_targets bp) Hs EF) as (p' & E & _).
  - assert (Hlt : Forall (λ t, t < size ls) (m_sorted_targets bp)).
    { rewrite Hwf, sortN_perm. apply Forall_forall. intros t Ht. apply elem_of_list_lookup in Ht as [k Hk]. eapply Forall2_lookup_r in HF as (h & _ & Hlt & _); [|exact Hk]. by rewrite <- Hfn. }
    clear - Hlt Hg. induction Hlt as [|t ts Ht Hlt IH]; [constructor|]. rewrite fmap_cons. constructor; [by apply Hg|done].
  - exists p'. split; [|done]. rewrite Eh, Hwf. by rewrite sortN_perm.
Qed.
End Spent.

(** ** Examples *)
Definition adds83 : list leaf := [(10, false); (11, false); (12, false)].
Definition run83 (H : hash -> hash -> hash) : res (bool * bool * bool * list N * bool) :=
  let* f := F_Modify H (RamForest_new 0) adds83 [] in
  let* p := P_Modify H (Pollard_new 0) adds83 [] in
  let* b := F_Prove f.2 [11; 10] in
  match b with
  | None => Ok (f.1, p.1, false, [], true)
  | Some bp => let* v := P_Verify H p.2 bp [11; 10] in Ok (f.1, p.1, true, m_targets bp, v.1)
  end.
Lemma run83_ok : run83 ex_H = Ok (true, true, true, [1; 0], false).
Proof. vm_compute. reflexivity. Qed.
Lemma run83_inv H : run83 H = Ok (true, true, true, [1; 0], false) -> exists f p bp p', synced H f p /\ F_Prove f [11; 10] = Ok (Some bp) /\ m_targets bp = [1; 0] /\
  P_Verify H p bp [11; 10] = Ok (false, p').
Proof.
  unfold run83. intros E. apply bind_ok in E as ([b1 f] & E1 & E). apply bind_ok in E as ([b2 p] & E2 & E). cbn [fst snd] in E.
  apply bind_ok in E as ([bp|] & E3 & E); [|by apply Ok_inv in E]. apply bind_ok in E as ([b4 v] & E4 & E). apply Ok_inv in E. cbn [fst snd] in E. injection E as -> -> Et ->.
  exists f, p, bp, v. split; [by apply (sync_start H adds83)|]. by split_and!.
Qed.

Definition run82 (H : hash -> hash -> hash) : res (bool * bool * bool * N * N * res hash * bool) :=
  let* f := F_Modify H (RamForest_new 0) adds83 [] in
  let* f1 := F_Modify H f.2 [(13, false)] [1] in
  let* f2 := F_Modify H f1.2 [(14, false); (15, false)] [0] in
  let* p := Pollard_restore (F_Roots f2.2) (f_n f2.2) in
  let* b := F_Prove f2.2 [12] in
  match b with
  | None => Ok (f.1, f1.1, f2.1, f_n f.2, f_n f1.2, F_GetLeaf f.2 1, false)
  | Some bp => let* v := P_Verify H p bp [11] in Ok (f.1, f1.1, f2.1, f_n f.2, f_n f1.2, F_GetLeaf f.2 1, v.1)
  end.
Lemma run82_ok : run82 ex_H = Ok (true, true, true, 3, 3, Ok 11, false).
Proof. vm_compute. reflexivity. Qed.
Lemma run82_inv H : run82 H = Ok (true, true, true, 3, 3, Ok 11, false) -> exists f f1 f2 p, reachable H f [] /\ F_GetLeaf f 1 = Ok 11 /\
  f_n f + size [(13, false)] < 2 ^ 31 + size [1] /\ F_Modify H f [(13, false)] [1] = Ok (true, f1) /\ later H f1 [14; 15] f2 /\ synced H f2 p.
Proof.
  unfold run82. intros E. apply bind_ok in E as ([b1 f] & E1 & E). apply bind_ok in E as ([b2 f1] & E2 & E). cbn [fst snd] in E.
  apply bind_ok in E as ([b3 f2] & E3 & E). cbn [fst snd] in E. apply bind_ok in E as (p & E4 & E).
  assert (Hx : b1 = true /\ b2 = true /\ b3 = true /\ f_n f = 3 /\ f_n f1 = 3 /\ F_GetLeaf f 1 = Ok 11).
  { apply bind_ok in E as ([bp|] & _ & E); [apply bind_ok in E as ([b4 v] & _ & E)|]; apply Ok_inv in E; split_and!; congruence. }
  destruct Hx as (-> & -> & -> & Ef & Ef1 & El). assert (Hb : 3 + size [(13, false)] < 2 ^ 31 + size [1]) by done. assert (Hb2 : 3 + size [(14, false); (15, false)] < 2 ^ 31 + size [0]) by done.
  assert (Hr : reachable H f []) by (eapply reach_modify; [constructor| |exact E1]; done).
  assert (Hr1 : reachable H f1 []) by (eapply reach_modify; [exact Hr| |exact E2]; by rewrite Ef).
  assert (Hr2 : reachable H f2 []) by (eapply reach_modify; [exact Hr1| |exact E3]; by rewrite Ef1).
  exists f, f1, f2, p. split; [done|]. split; [done|]. split; [by rewrite Ef|]. split; [done|]. split; [|by eapply sy_restore].
  change [14; 15] with ([] ++ [(14, false); (15, false)].*1). eapply later_modify; [constructor| |exact E3]. by rewrite Ef1.
Qed.
