(** * TwinFacts: forests that hold the same leaves behave alike (proofs) *)
From stdpp Require Import sorting.
From Verif Require Import Base StateModel CodecModel ForestModel PosSpec PosFacts MerkleSpec TargetFacts ForestFacts
  RowFacts TransformFacts SpecFacts RemoveFacts ForestInv AddFacts UndoFacts CommitFacts ForestSpec HistFacts ProofSpec ProveFacts ForestMore WireFacts UndoExact.
From Coq Require Import ZifyBool ZifyNat ZifyN.
Ltac Zify.zify_post_hook ::= idtac.

Section Twin.
Context (H : hash -> hash -> hash).
Implicit Types (f g : forest) (ls : list hash).

Lemma entry_unique k ts hs hs' ls0 ls : size ls0 < 2 ^ 31 -> entry_ok (UndoBatch k ts hs) ls0 ls -> entry_ok (UndoBatch k ts hs') ls0 ls -> hs = hs'.
Proof.
  intros Hn (l1 & a1 & h1 & t1 & L1 & E1 & F1 & A1 & A2 & A3 & A4 & A5 & A6) (l2 & a2 & h2 & t2 & L2 & E2 & F2 & B1 & B2 & B3 & B4 & B5 & B6).
  injection E1 as -> -> ->. injection E2 as Ea <- ->. assert (H62 : 2 ^ 31 <= 2 ^ 62) by done.
  rewrite F1 in F2. apply app_inj_2 in F2 as [<- <-]; [|unfold size in Ea; lia].
  destruct (undo_swaps_exist (size ls0) L1 ltac:(lia) A4) as (es & _ & Hgood & Hact).
  apply (app_inv_head l1). apply total_ext; [rewrite !app_length; unfold size in *; lia|]. intros i Hi.
  assert (Hi' : N.of_nat i < size ls0) by (rewrite app_length in Hi; unfold size in *; lia).
  assert (Hx : lact (rev es) (N.of_nat i) < size ls0).
  { refine (lact_lt H (size ls0) (rev es) _ _ Hi'). intros s Hs. apply Hgood. by rewrite elem_of_list_In, <- in_rev, <- elem_of_list_In in Hs. }
  pose proof (A6 _ Hx) as C1. pose proof (B6 _ Hx) as C2. rewrite (rowsact_dead (size ls0) L2 L1) in C2 by (try lia; congruence).
  rewrite <- Hact, lact_rev in C1, C2. unfold leaf_at in C1, C2. rewrite Nat2N.id in C1, C2. congruence.
Qed.

Lemma twin_lem f us g vs ls (adds : list leaf) ts : reachable H f us -> reachable H g vs -> holds_leaves f ls -> holds_leaves g ls -> size ls + size adds < 2 ^ 31 + size ts ->
  (forall b f', F_Modify H f adds ts = Ok (b, f') -> exists g', F_Modify H g adds ts = Ok (b, g') /\ same_forest f' g') /\
  (forall b u f', F_ModifyUndo H f adds ts = Ok (b, u, f') -> exists g', F_ModifyUndo H g adds ts = Ok (b, u, g') /\ same_forest f' g') /\
  (F_Modify H f adds ts = Abort -> F_Modify H g adds ts = Abort) /\ (F_ModifyUndo H f adds ts = Abort -> F_ModifyUndo H g adds ts = Abort) /\
  (forall hs, F_Prove f hs = F_Prove g hs) /\ forall p hs, F_Verify f p hs = F_Verify g p hs.
Proof.
  intros Hrf Hrg Hf Hg Hb. destruct (reachable_holds H f us ls Hrf Hf) as (If & Hn & _). destruct (reachable_holds H g vs ls Hrg Hg) as (Ig & _ & _).
  assert (H62 : 2 ^ 31 <= 2 ^ 62) by done. assert (Hs : same_forest f g) by (apply (inv_same H f g ls); [done|done|lia]).
  assert (Hfn : f_n f = size ls) by apply Hf. assert (Hgn : f_n g = size ls) by apply Hg.
  assert (Hp : (forall hs, F_Prove f hs = F_Prove g hs) /\ forall p hs, F_Verify f p hs = F_Verify g p hs).
  { split; [intros hs; apply C10_proofs_lem; [done|lia]|intros p hs; unfold F_Verify; by destruct Hs as (_ & _ & -> & _)]. }
  destruct (valid_dec (size ls) ts) as [Hv|Hv].
  - destruct (F_Modify_ok H f ls adds ts If Hn Hb Hv) as [(Hnd & f1 & u & E1 & E2 & If1 & Hn1 & _ & Ef & _)|(Hnd & E1 & E2)];
    destruct (F_Modify_ok H g ls adds ts Ig Hn Hb Hv) as [(Hnd' & g1 & v & E3 & E4 & Ig1 & _ & _ & Eg & _)|(Hnd' & E3 & E4)]; try done.
    + assert (Hs1 : same_forest f1 g1) by (apply (inv_same H f1 g1 (spec_remove ls ts ++ adds.*1)); [done|done|lia]).
      assert (u = v) as <-.
      { destruct (undo_batch_shape H f adds ts u f1 E2) as (hs & ->). destruct (undo_batch_shape H g adds ts v g1 E4) as (hs' & ->). f_equal. by apply (entry_unique _ _ _ _ _ _ Hn Ef Eg). }
      rewrite E1, E2, E3, E4. split; [|split; [|split; [|split; [|exact Hp]]]]; [| |done|done].
      * intros b f' E. injection E as <- <-. by exists g1.
      * intros b u' f' E. injection E as <- <- <-. by exists g1.
    + rewrite E1, E2, E3, E4. split; [done|]. split; [done|]. split; [done|]. split; [done|exact Hp].
  - destruct (F_Modify_invalid H f ls adds ts Hfn Hv) as [E1 E2]. destruct (F_Modify_invalid H g ls adds ts Hgn Hv) as [E3 E4]. rewrite E1, E2, E3, E4. split; [|split; [|split; [|split; [|exact Hp]]]]; [| |done|done].
    + intros b f' E. injection E as <- <-. by exists g.
    + intros b u' f' E. injection E as <- <- <-. by exists g.
Qed.

Lemma modifies_reach f vs f1 : modifies H f vs f1 -> forall us, reachable H f us -> reachable H f1 (vs ++ us).
Proof.
  induction 1 as [f|f adds ts u f1 us f2 Hb E _ IH]; intros ws Hr; [done|]. rewrite <- app_assoc. apply IH. by apply (reach_modify_undo H f ws adds ts u f1).
Qed.
Lemma undo_all_reach vs : forall f us f', reachable H f (vs ++ us) -> undo_all H f vs = Ok (Some f') -> reachable H f' us.
Proof.
  induction vs as [|u vs IH]; intros f us f' Hr E; cbn [undo_all app] in *; [injection E as <-; done|]. apply bind_ok in E as ([b f1] & E1 & E). cbn [fst snd] in E. destruct b; [|done].
  apply (IH f1); [|done]. by apply (reach_undo H f u).
Qed.
Lemma same_leaves f g ls : same_forest f g -> holds_leaves f ls -> size ls <= 2 ^ 62 -> holds_leaves g ls.
Proof.
  intros (Hn & _ & _ & Hread) [Hfn Hl] H62. split; [congruence|]. intros i Hi. rewrite <- (Hl i Hi). unfold F_GetLeaf. rewrite <- Hn.
  destruct (N.ltb_spec i (f_n f)); [|lia]. cbn [assert_ bind]. assert (HR : is_height (f_n f) (NumRows (f_n f))) by (by apply NumRows_height).
  destruct (Hread (NumRows (f_n f)) 0 i HR) as (h & E1 & E2); [unfold node; change (2 ^ 0) with 1; lia|]. rewrite enc_0 in E1, E2. by rewrite E1, E2.
Qed.
Lemma modifies_twin f ws f' : modifies H f ws f' -> forall g us vs, reachable H f us -> reachable H g vs -> same_forest f g -> exists g', modifies H g ws g' /\ same_forest f' g'.
Proof.
  induction 1 as [f|f adds ts u f1 us f2 Hb E _ IH]; intros g us0 vs Hrf Hrg Hs; [exists g; split; [constructor|done]|].
  destruct (reachable_inv H f us0 Hrf) as (ls & If & Hn & _). assert (H62 : 2 ^ 31 <= 2 ^ 62) by done.
  assert (Hf : holds_leaves f ls) by (apply (F_GetLeaf_ok H); [done|lia]). assert (Hg : holds_leaves g ls) by (apply (same_leaves f g); [done|done|lia]).
  assert (Hb' := Hb). replace (f_n f) with (size ls) in Hb' by (symmetry; apply Hf).
  destruct (twin_lem f us0 g vs ls adds ts Hrf Hrg Hf Hg Hb') as (_ & Hm & _). destruct (Hm _ _ _ E) as (g1 & Eg & Hs1).
  assert (Hbg : f_n g + size adds < 2 ^ 31 + size ts) by (destruct Hs as [<- _]; done).
  destruct (IH g1 (u :: us0) (u :: vs)) as (g' & Hm' & Hs'); [by apply (reach_modify_undo H f us0 adds ts u f1)|by apply (reach_modify_undo H g vs adds ts u g1)|done|].
  exists g'. split; [|done]. by apply (mod_cons H g adds ts u g1).
Qed.
Lemma reorg_lem f us vs f1 f2 ws f' : reachable H f us -> modifies H f vs f1 -> undo_all H f1 vs = Ok (Some f2) -> modifies H f ws f' ->
  exists f2', modifies H f2 ws f2' /\ same_forest f' f2'.
Proof.
  intros Hr Hm Eu Hw. apply (modifies_twin f ws f' Hw f2 us us Hr).
  - apply (undo_all_reach vs f1); [by apply (modifies_reach f)|done].
  - destruct (C09_lem H f us vs f1 Hr Hm) as (f3 & E3 & Hs). by replace f2 with f3 by congruence.
Qed.

(** ** Undo batches *)
Lemma undo_twin_lem f us (adds : list leaf) ts u f1 g vs ls : reachable H f us -> f_n f + size adds < 2 ^ 31 + size ts ->
  F_ModifyUndo H f adds ts = Ok (true, Some u, f1) -> reachable H g vs -> holds_leaves f1 ls -> holds_leaves g ls ->
  ((exists g', F_Undo H g u = Ok (true, g')) <-> forall R, is_height (f_n f) R -> R < size (f_data g)) /\
  forall g', F_Undo H g u = Ok (true, g') -> same_forest f g'.
Proof.
  intros Hr Hb E Hrg Hf1 Hg. destruct (reachable_inv H f us Hr) as (ls0 & If & Hn & _). assert (H62 : 2 ^ 31 <= 2 ^ 62) by done.
  assert (Hf : holds_leaves f ls0) by (apply (F_GetLeaf_ok H); [done|lia]). assert (Hfn : f_n f = size ls0) by apply Hf. rewrite Hfn in Hb |- *.
  destruct (C02_lem H f us ls0 adds ts f1 Hr Hf Hb) as [Hv _]; [by right; eexists|].
  destruct (F_Modify_ok H f ls0 adds ts If Hn Hb Hv) as [(Hnd & f2 & u' & _ & E2 & If2 & Hn2 & _ & Ent & Hsz)|(_ & _ & E2)]; [|congruence].
  assert (f2 = f1 /\ u' = u) as [-> ->] by (split; congruence).
  assert (ls = spec_remove ls0 ts ++ adds.*1) as -> by (apply (holds_unique f1); [done|]; apply (F_GetLeaf_ok H); [done|lia]).
  destruct (reachable_holds H g vs _ Hrg Hg) as (Ig & _ & _).
  assert (Hok : NumRows (size ls0) < size (f_data g) -> exists g', F_Undo H g u = Ok (true, g') /\ same_forest f g').
  { intros Hrows. destruct (Undo_entry H g _ u ls0 Ig Hn2 Ent Hrows Hn) as (g' & Eg & Ig' & _). exists g'. split; [done|]. apply (inv_same H f g' ls0); [done|done|lia]. }
  assert (Hrows : (exists g', F_Undo H g u = Ok (true, g')) -> forall R, is_height (size ls0) R -> R < size (f_data g)).
  { destruct (undo_contents_lem H f us ls0 adds ts u f1 Hr Hf) as (hs & -> & Hp); [by rewrite Hfn|done|].
    assert (Hhs : size hs = size ts) by (unfold size; rewrite Hp, fmap_length; done).
    assert (Hsa : size (spec_remove ls0 ts ++ adds.*1) = size (spec_remove ls0 ts) + size adds) by (rewrite size_app'; unfold size, leaf in *; rewrite fmap_length; lia).
    assert (Etake : take (N.to_nat (size (spec_remove ls0 ts ++ adds.*1) - size adds)) (spec_remove ls0 ts ++ adds.*1) = spec_remove ls0 ts).
    { rewrite Hsa. replace (N.to_nat (size (spec_remove ls0 ts) + size adds - size adds)) with (length (spec_remove ls0 ts)) by (unfold size; lia). apply take_app. }
    assert (Hn0 : size (spec_remove ls0 ts) + size ts = size ls0) by lia.
    intros Hex. pose proof (undo_exact_lem H g vs _ (size adds) ts hs Hrg Hg ltac:(lia) Hhs) as Hx. cbv zeta in Hx. rewrite Etake, Hn0 in Hx. destruct (Hx Hn Hv) as (_ & [Hiff _] & _). by apply Hiff. }
  split.
  - split; [exact Hrows|]. intros HR. destruct (Hok (HR _ ltac:(by apply NumRows_height))) as (g' & Eg & _). by exists g'.
  - intros g' Eg. destruct (Hok (Hrows (ex_intro _ g' Eg) _ ltac:(by apply NumRows_height))) as (g2 & Eg2 & Hs). by replace g' with g2 by congruence.
Qed.
End Twin.
