(** * TwinExamples: two forests with the same leaves and different histories *)
From Verif Require Import Base StateModel CodecModel ForestModel PosSpec PosFacts MerkleSpec ForestSpec HistFacts PosmapFacts ForestExamples ForestFacts ForestFacts TwinFacts.
From Coq Require Import ZifyBool ZifyNat ZifyN.
Ltac Zify.zify_post_hook ::= idtac.

(** Seven leaves, and nine of which the last two are deleted. *)
Definition mk93 (ls : list hash) : list leaf := (λ h, (h, false)) <$> ls.
Definition run93 (H : hash -> hash -> hash) (l1 l2 : list leaf) (ts : list N) :=
  let* a := F_Modify H (RamForest_new 0) l1 [] in
  let* b := F_Modify H (RamForest_new 0) l2 [] in
  let* c := F_Modify H b.2 [] ts in
  let* la := mapM_ (F_GetLeaf a.2) (nseq 0 (f_n a.2)) in
  let* lc := mapM_ (F_GetLeaf c.2) (nseq 0 (f_n c.2)) in
  Ok (a.1, b.1, c.1, f_n b.2, la, lc, (size (f_data a.2), size (f_data c.2))).
Lemma run93_ok : run93 ex_H (mk93 ex_ls) (mk93 (ex_ls ++ [90; 91])) [7; 8] = Ok (true, true, true, 9, ex_ls, ex_ls, (4, 5)).
Proof. vm_compute. reflexivity. Qed.
Lemma get_leaves f n ls : mapM_ (F_GetLeaf f) (nseq 0 n) = Ok ls -> f_n f = n -> holds_leaves f ls.
Proof.
  intros E Hn. assert (HF : Forall2 (λ i h, F_GetLeaf f i = Ok h) (nseq 0 n) ls).
  { clear Hn. revert ls E. induction (nseq 0 n) as [|i l IH]; intros ls E; cbn [mapM_] in E; [injection E as <-; constructor|].
    apply bind_ok in E as (h & E1 & E). apply bind_ok in E as (hs & E2 & E). injection E as <-. constructor; [done|by apply IH]. }
  assert (Hl := Forall2_length _ _ _ HF). rewrite nseq_length in Hl. split; [unfold size; lia|]. intros i Hi.
  destruct (Forall2_lookup_l _ _ _ (N.to_nat i) i HF) as (h & Hh & Eh); [rewrite nseq_lookup by (unfold size in Hi; lia); f_equal; lia|]. rewrite Eh. f_equal. unfold leaf_at. symmetry. by apply list_lookup_total_correct.
Qed.
Lemma run93_inv H l1 l2 ts n la lc x y : run93 H l1 l2 ts = Ok (true, true, true, n, la, lc, (x, y)) -> size l1 < 2 ^ 31 -> size l2 < 2 ^ 31 -> n < 2 ^ 31 + size ts -> x <> y ->
  exists f g, reachable H f [] /\ reachable H g [] /\ holds_leaves f la /\ holds_leaves g lc /\ f <> g.
Proof.
  unfold run93. intros E H1 H2 Hn Hxy. apply bind_ok in E as ([ba fa] & Ea & E). apply bind_ok in E as ([bb fb] & Eb & E). apply bind_ok in E as ([bc fc] & Ec & E).
  apply bind_ok in E as (la' & La & E). apply bind_ok in E as (lc' & Lc & E). cbn [fst snd] in *. injection E as -> -> -> <- -> -> <- <-.
  exists fa, fc. split; [|split; [|split; [|split]]].
  - apply (reach_modify H (RamForest_new 0) [] l1 []); [constructor| |exact Ea]. change (f_n (RamForest_new 0)) with 0. change (size (@nil N)) with 0. lia.
  - apply (reach_modify H fb [] [] ts); [| |exact Ec].
    + apply (reach_modify H (RamForest_new 0) [] l2 []); [constructor| |exact Eb]. change (f_n (RamForest_new 0)) with 0. change (size (@nil N)) with 0. lia.
    + change (size (@nil leaf)) with 0. lia.
  - by apply (get_leaves fa (f_n fa)).
  - by apply (get_leaves fc (f_n fc)).
  - intros ->. done.
Qed.
Lemma ex93 : exists f g, reachable ex_H f [] /\ reachable ex_H g [] /\ holds_leaves f ex_ls /\ holds_leaves g ex_ls /\ f <> g /\ size ex_ls + size ex_adds < 2 ^ 31 + size ex_ts.
Proof.
  destruct (run93_inv _ _ _ _ _ _ _ _ _ run93_ok) as (f & g & H1 & H2 & H3 & H4 & H5); [exact eq_refl|exact eq_refl|exact eq_refl|done|].
  exists f, g. split; [exact H1|]. split; [exact H2|]. split; [exact H3|]. split; [exact H4|]. split; [exact H5|exact eq_refl].
Qed.
Lemma ex93_reorg : exists f1 vs f2, reachable ex_H (RamForest_new 0) [] /\ modifies ex_H (RamForest_new 0) vs f1 /\ undo_all ex_H f1 vs = Ok (Some f2) /\ vs <> [].
Proof.
  destruct ex_modifies as (us0 & f' & u1 & u2 & Hr & Hm & _). destruct (C09_lem ex_H _ _ _ _ Hr Hm) as (f2 & E & _). exists f', [u2; u1], f2. split; [constructor|done].
Qed.
Lemma ex93_undo : exists f g u f1 g1 ls, reachable ex_H f [] /\ reachable ex_H g1 [u] /\ f <> g /\
  f_n f + size ex_adds < 2 ^ 31 + size ex_ts /\ F_ModifyUndo ex_H f ex_adds ex_ts = Ok (true, Some u, f1) /\
  F_ModifyUndo ex_H g ex_adds ex_ts = Ok (true, Some u, g1) /\ holds_leaves f1 ls /\ holds_leaves g1 ls.
Proof.
  destruct ex93 as (f & g & Hf & Hg & Lf & Lg & Hne & Hb). assert (Hb' : f_n f + size ex_adds < 2 ^ 31 + size ex_ts) by (destruct Lf as [-> _]; exact Hb).
  assert (Hbg : f_n g + size ex_adds < 2 ^ 31 + size ex_ts) by (destruct Lg as [-> _]; exact Hb).
  assert (Hnd : NoDup (spec_remove ex_ls ex_ts ++ ex_adds.*1)) by (apply (bool_decide_unpack _); by vm_compute).
  destruct (step_ok ex_H f [] ex_ls ex_adds ex_ts Hf Lf Hb ex_valid Hnd) as (u & f1 & _ & E & _ & _ & L1).
  destruct (twin_lem ex_H f [] g [] ex_ls ex_adds ex_ts Hf Hg Lf Lg Hb) as (_ & Hm & _). destruct (Hm _ _ _ E) as (g1 & Eg & _).
  exists f, g, u, f1, g1, (spec_remove ex_ls ex_ts ++ ex_adds.*1). split; [exact Hf|]. split; [exact (reach_modify_undo ex_H g [] ex_adds ex_ts u g1 Hg Hbg Eg)|].
  split; [exact Hne|]. split; [exact Hb'|]. split; [exact E|]. split; [exact Eg|]. split; [exact L1|].
  apply (C03_lem ex_H g [] ex_ls ex_adds ex_ts g1 Hg Lg Hb). right. by exists (Some u).
Qed.
