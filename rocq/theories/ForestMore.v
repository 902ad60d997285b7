(** * ForestMore: undoing foreign batches, RamForest(n), ComparePositionMap (proofs) *)
From stdpp Require Import sorting.
From Verif Require Import Base StateModel CodecModel ForestModel PosSpec PosFacts PathFacts MerkleSpec CodecSpec CodecFacts TargetFacts ForestFacts
  RowFacts TransformFacts SpecFacts RemoveFacts ForestInv AddFacts UndoFacts ForestSpec HistFacts.
From Coq Require Import ZifyBool ZifyNat ZifyN.
Ltac Zify.zify_post_hook ::= idtac.
Ltac dlia := zify; Z.div_mod_to_equations; lia.

(** ** The movement of the leaves depends on the targets only *)
Lemma lf_inj x y : lf_of x = lf_of y -> x.1.1 = y.1.1 /\ x.2 = y.2.
Proof.
  intros E. destruct (lf_fields x) as (X1 & X2 & X3), (lf_fields y) as (Y1 & Y2 & Y3). rewrite E in X1, X2, X3. rewrite X3 in Y3. apply N.pow_inj_r in Y3; [|lia].
  apply Nat2N.inj in Y3. split; [done|]. rewrite Y3 in *. assert (Hp : 2 ^ N.of_nat y.1.1 <> 0) by (apply N.pow_nonzero; lia).
  rewrite X1 in Y1. rewrite X2 in Y2. apply N.mul_cancel_r in Y1, Y2; [|done..]. destruct x as [? [? ?]], y as [? [? ?]]. cbn [fst snd] in *. by subst.
Qed.
Lemma lact_lf es es' : lf_of <$> es = lf_of <$> es' -> forall x, lact es x = lact es' x.
Proof.
  revert es'. induction es as [|s es IH]; intros [|s' es'] E x; try done. rewrite !fmap_cons in E. injection E as Es E. apply lf_inj in Es as [E1 E2].
  unfold lact in *. cbn [fold_left]. rewrite E1, E2. by apply IH.
Qed.
Lemma rowsact_dead n L L' x : n <= 2 ^ 62 -> size L = n -> size L' = n -> dead 0 L = dead 0 L' ->
  rowsact n L (N.to_nat (NumRows n)) 0 x = rowsact n L' (N.to_nat (NumRows n)) 0 x.
Proof.
  intros Hn HL HL' E. destruct (undo_swaps_exist n L Hn HL) as (es & E1 & _ & A1), (undo_swaps_exist n L' Hn HL') as (es' & E2 & _ & A2).
  rewrite <- A1, <- A2. rewrite E, E2 in E1. injection E1 as E1. by apply lact_lf.
Qed.

Section More.
Context (H : hash -> hash -> hash).
Implicit Types (f : forest) (ls : list hash).

Lemma leaf_at_eq ls ls' : size ls = size ls' -> (forall i, i < size ls -> leaf_at ls i = leaf_at ls' i) -> ls = ls'.
Proof.
  intros Hs He. apply (list_eq_same_length ls ls' (length ls)); [unfold size in Hs; lia|done|]. intros i x y Hi Hx Hy.
  specialize (He (N.of_nat i) ltac:(unfold size; lia)). unfold leaf_at in He. rewrite Nat2N.id in He. apply list_lookup_total_correct in Hx, Hy. congruence.
Qed.
Lemma undo_rows_lem f us ls k ts hs : reachable H f us -> holds_leaves f ls -> k <= size ls -> size hs = size ts ->
  let ls1 := take (N.to_nat (size ls - k)) ls in let n0 := size ls1 + size ts in
  n0 < 2 ^ 31 -> valid_targets n0 ts -> NoDup (ls1 ++ hs) -> NumRows n0 < size (f_data f) ->
  exists f' ls0, F_Undo H f (UndoBatch k ts hs) = Ok (true, f') /\ holds_leaves f' ls0 /\ roots_of H ls0 (F_Roots f') /\
    ls0 ≡ₚ ls1 ++ hs /\ spec_remove ls0 ts = ls1.
Proof.
  intros Hr Hh Hk Hhs ls1 n0 Hn0 Hv Hnd Hrows. destruct (reachable_holds H f us ls Hr Hh) as (Hi & Hn & _). pose proof Hh as [Hfn _].
  remember (drop (N.to_nat (size ls - k)) ls) as as_ eqn:Eas. assert (El : ls = ls1 ++ as_) by (rewrite Eas; symmetry; apply take_drop).
  assert (Hk' : size as_ = k) by (rewrite Eas; unfold size in *; rewrite drop_length; lia). clearbody ls1. clear Eas.
  remember (leaf_row (replicate (N.to_nat n0) 0) ts) as L0 eqn:EL0.
  assert (Es : size (replicate (N.to_nat n0) 0) = n0) by (unfold size; rewrite replicate_length; lia).
  assert (HL0 : size L0 = n0) by (by rewrite EL0, leaf_row_size). assert (Hdead : dead 0 L0 = ts) by (rewrite EL0; apply leaf_row_dead; by rewrite Es).
  assert (H62 : 2 ^ 31 <= 2 ^ 61) by done. assert (H62' : 2 ^ 61 <= 2 ^ 62) by done. assert (Hmax : int_max + 1 = 2 ^ 31) by done.
  destruct (undo_swaps_exist n0 L0 ltac:(lia) HL0) as (es & _ & Hgood & Hact).
  remember (ls1 ++ hs) as P eqn:EP. assert (HP : size P = n0) by (rewrite EP, size_app'; lia).
  remember ((λ x, leaf_at P (lact es x)) <$> nseq 0 n0) as ls0 eqn:Els0.
  assert (Hs0 : size ls0 = n0) by (rewrite Els0; unfold size; rewrite fmap_length, nseq_length; lia).
  assert (Hat : forall x, x < n0 -> leaf_at P (lact es x) = leaf_at ls0 x).
  { intros x Hx. symmetry. rewrite Els0. unfold leaf_at at 1. apply list_lookup_total_correct. rewrite list_lookup_fmap, nseq_lookup by lia. cbn. by rewrite N2Nat.id. }
  destruct (F_Undo_ok H f ls0 ls1 as_ hs ts L0 n0) as (f' & EU & Hi' & _); try done.
  { by rewrite <- El. } { rewrite <- El. lia. } { lia. } { by rewrite <- EP. } { intros x Hx. rewrite <- EP, <- Hact. by apply Hat. }
  rewrite Hk' in EU. exists f', ls0. split; [done|]. split; [apply (F_GetLeaf_ok H); [done|lia]|]. split; [rewrite (inv_roots _ _ _ Hi'); apply spec_roots_of|].
  split.
  - apply NoDup_Permutation; [by eapply inv_NoDup|done|]. intros h. split.
    + rewrite Els0. intros (x & -> & Hx%nseq_elem)%elem_of_list_fmap. assert (Hl : lact es x < n0) by (apply (lact_lt H); [done|lia]).
      unfold leaf_at. apply elem_of_list_lookup_total_2. unfold size in HP. lia.
    + intros [i Hi0]%elem_of_list_lookup. assert (Hlt : N.of_nat i < n0) by (apply lookup_lt_Some in Hi0; unfold size in HP; lia).
      assert (Hl : lact (rev es) (N.of_nat i) < n0) by (apply (lact_lt H); [|done]; intros s Hs; apply Hgood; by rewrite elem_of_list_In, <- in_rev, <- elem_of_list_In in Hs).
      rewrite Els0. apply elem_of_list_fmap. exists (lact (rev es) (N.of_nat i)). split; [|apply nseq_elem; lia]. rewrite lact_rev. unfold leaf_at. rewrite Nat2N.id. symmetry. by apply list_lookup_total_correct.
  - destruct (F_Remove_all H f' ls0 ts Hi') as (f1 & _ & Hi1 & _ & _ & Hsz & Hrho); [lia|by rewrite Hs0|]. rewrite Hs0 in *.
    assert (Hsz1 : size (spec_remove ls0 ts) = size ls1) by (unfold n0 in *; lia). apply leaf_at_eq; [done|]. intros i Hlt.
    assert (Hlt' : i < n0) by (unfold n0; lia).
    assert (Hl : lact (rev es) i < n0) by (apply (lact_lt H); [|done]; intros s Hs; apply Hgood; by rewrite elem_of_list_In, <- in_rev, <- elem_of_list_In in Hs).
    specialize (Hrho (lact (rev es) i)). rewrite (rowsact_dead n0 _ L0), <- Hact, lact_rev in Hrho; [|lia|by rewrite leaf_row_size|done|rewrite leaf_row_dead by (by rewrite Hs0); done].
    change (leaf_at (spec_remove ls0 ts) i) with (nh H (leaf_at (spec_remove ls0 ts)) 0 i). rewrite <- (inv_node _ _ _ Hi1) by (unfold node; change (2 ^ N.of_nat 0) with 1; lia).
    rewrite Hrho, (inv_node _ _ _ Hi') by (rewrite Hs0; unfold node; change (2 ^ N.of_nat 0) with 1; lia). cbn [nh]. rewrite <- Hat by done. rewrite lact_rev, EP. apply (leaf_at_app1 H). lia.
Qed.
Lemma undo_any_lem f us ls k ts hs R R' : reachable H f us -> holds_leaves f ls -> k <= size ls -> size hs = size ts ->
  let ls1 := take (N.to_nat (size ls - k)) ls in let n0 := size ls1 + size ts in
  n0 < 2 ^ 31 -> valid_targets n0 ts -> NoDup (ls1 ++ hs) -> is_height (size ls) R -> is_height n0 R' -> R' <= R ->
  exists f' ls0, F_Undo H f (UndoBatch k ts hs) = Ok (true, f') /\ holds_leaves f' ls0 /\ roots_of H ls0 (F_Roots f') /\
    ls0 ≡ₚ ls1 ++ hs /\ spec_remove ls0 ts = ls1.
Proof.
  intros Hr Hh Hk Hhs ls1 n0 Hn0 Hv Hnd HR HR' Hle. destruct (reachable_holds H f us ls Hr Hh) as (Hi & _). pose proof (inv_rows _ _ _ Hi) as Hrows.
  apply NumRows_height in HR as <-, HR' as <-. apply (undo_rows_lem f us ls k ts hs); try done. fold ls1 n0. lia.
Qed.
(** A hash that is still there: Undo reports failure. *)
Lemma undo_place_dup n1 hs : forall i row0 (m : gmap N N) dirt, n1 + i + size hs <= size row0 -> size row0 < two64 ->
  ~ (NoDup hs /\ forall h, h ∈ hs -> m !! h = None) -> exists row0' m' d', undo_place n1 i row0 m dirt hs = Ok (false, row0', m', d').
Proof.
  induction hs as [|h hs IH]; intros i row0 m dirt Hs H64 Hx.
  - destruct Hx. split; [constructor|]. by intros h ?%elem_of_nil.
  - assert (Hsz : size (h :: hs) = size hs + 1) by (unfold size; cbn [length]; lia). cbn [undo_place]. rewrite add64_small by lia.
    destruct (N.leb_spec (size row0) (n1 + i)); [lia|]. rewrite vec_set_ok by lia. cbn [bind]. destruct (m !! h) as [q|] eqn:Em; [by eexists _, _, _|].
    apply IH; [unfold size in *; rewrite insert_length; lia|unfold size in *; rewrite insert_length; lia|]. intros [Hnd Hno]. apply Hx. split.
    + apply NoDup_cons. split; [|done]. intros Hin. apply Hno in Hin. by rewrite lookup_insert in Hin.
    + intros x [->|Hin]%elem_of_cons; [done|]. apply Hno in Hin. destruct (decide (h = x)) as [->|Hne]; [by rewrite lookup_insert in Hin|]. by rewrite lookup_insert_ne in Hin.
Qed.
Lemma undo_dup_lem f us ls k ts hs : reachable H f us -> holds_leaves f ls -> k <= size ls -> size hs = size ts ->
  let ls1 := take (N.to_nat (size ls - k)) ls in let n0 := size ls1 + size ts in
  n0 < 2 ^ 31 -> valid_targets n0 ts -> ~ NoDup (ls1 ++ hs) -> exists f', F_Undo H f (UndoBatch k ts hs) = Ok (false, f').
Proof.
  intros Hr Hh Hk Hhs ls1 n0 Hn0 Hv Hnd. destruct (reachable_holds H f us ls Hr Hh) as (Hi & Hn & _).
  remember (drop (N.to_nat (size ls - k)) ls) as as_ eqn:Eas. assert (El : ls = ls1 ++ as_) by (rewrite Eas; symmetry; apply take_drop).
  assert (Hk' : size as_ = k) by (rewrite Eas; unfold size in *; rewrite drop_length; lia). clearbody ls1. clear Eas.
  remember (leaf_row (replicate (N.to_nat n0) 0) ts) as L0 eqn:EL0.
  assert (Es : size (replicate (N.to_nat n0) 0) = n0) by (unfold size; rewrite replicate_length; lia).
  assert (HL0 : size L0 = n0) by (by rewrite EL0, leaf_row_size). assert (Hdead : dead 0 L0 = ts) by (rewrite EL0; apply leaf_row_dead; by rewrite Es).
  assert (H62 : 2 ^ 31 <= 2 ^ 61) by done. assert (H64 : 2 ^ 62 + 2 ^ 62 < two64) by done. assert (H61 : 2 ^ 61 + 2 ^ 61 = 2 ^ 62) by done. assert (Hmax : int_max + 1 = 2 ^ 31) by done.
  subst ls. assert (Hnl : NoDup (ls1 ++ as_)) by (by eapply inv_NoDup). destruct Hi as [Hw Hnode Hp Hroots Hrows]. unfold n0 in *. clear n0. remember (size ls1 + size ts) as n0 eqn:En0.
  remember (size ls1) as n1 eqn:En1. assert (Hsz : size (ls1 ++ as_) = n1 + k) by (unfold size in *; rewrite app_length; lia). rewrite Hsz in *.
  pose proof Hw as [Hfn Hlen]. unfold F_Undo. cbn [m_num_additions m_deleted_positions m_deleted_hashes].
  destruct (N.eqb_spec (size (f_data f)) 0); [lia|]. rewrite Hfn.
  rewrite add64_small by lia. rewrite !sub64_small by lia.
  replace (n1 + k + size ts - k) with n0 by lia. replace (n1 + k - k) with n1 by lia. replace (n1 + k - n1) with k by lia.
  destruct (undo_swaps_exist n0 L0 ltac:(lia) HL0) as (es & Eu & Hgood & Hact). rewrite Hdead in Eu. rewrite Eu. cbn [bind].
  destruct (undo_erase_ok f (n1 + k) k Hw ltac:(lia) (posmap_inj _ _ Hp) n1 (f_posmap f) ltac:(lia)) as (m & Em & Hm).
  { intros p Hpr E. assert (E2 := proj2 (Hp (G f 0 p) p) ltac:(split; [lia|done])). congruence. }
  rewrite Em. cbn [bind fst snd negb]. assert (HG0 : forall x, x < n1 + k -> G f 0 x = leaf_at (ls1 ++ as_) x).
  { intros x Hx. rewrite Hnode; [done|]. unfold node. change (2 ^ N.of_nat 0) with 1. lia. }
  assert (Hin1 : forall h, h ∈ ls1 -> is_Some (m !! h)).
  { intros h Hx. rewrite Hm. rewrite decide_False.
    - apply elem_of_list_lookup in Hx as [j Hj]. exists (N.of_nat j). apply lookup_lt_Some in Hj as Hjl. apply Hp. assert (Hlt : N.of_nat j < n1) by (rewrite En1; unfold size; lia). split; [lia|].
      rewrite HG0 by lia. rewrite (leaf_at_app1 H) by lia. unfold leaf_at. rewrite Nat2N.id. by apply list_lookup_total_correct.
    - intros (q & -> & Hq%nseq_elem)%elem_of_list_fmap. rewrite HG0 in Hx by lia. replace q with (n1 + (q - n1)) in Hx by lia. rewrite En1, (leaf_at_app2 H) in Hx.
      apply NoDup_app in Hnl as (_ & Hd & _). apply (Hd _ Hx). unfold leaf_at. apply elem_of_list_lookup_total_2. unfold size in *. lia. }
  rewrite vec_get_ok by lia. cbn [bind]. change (N.to_nat 0) with 0%nat. rewrite int_loop_ok by lia. cbn [bind].
  destruct (undo_place_dup n1 hs 0 (vec_resize (f_data f !!! 0%nat) n0 zero_hash) m []) as (row0 & m' & d' & Ep).
  { rewrite vec_resize_size. lia. }
  { rewrite vec_resize_size. lia. }
  { intros [Hn1 Hno]. apply Hnd. apply NoDup_app. split; [by apply NoDup_app in Hnl as (? & _)|]. split; [|done]. intros h Hx Hy. apply Hin1 in Hx. rewrite (Hno h Hy) in Hx. by destruct Hx. }
  rewrite Ep. cbn [bind]. rewrite vec_set_ok by lia. cbn [bind negb]. by eexists.
Qed.

(** ** RamForest(num_leaves) *)
Lemma add_merge_posmap k : forall f st row root nh npos f', F_add_merge H k f st row root nh npos = Ok f' -> f_posmap f' = f_posmap f.
Proof.
  induction k as [|k IH]; intros f st row root nh npos f' E; cbn [F_add_merge] in E; apply bind_ok in E as (hr & _ & E); (destruct hr; [|by injection E as <-]); [done|].
  apply bind_ok in E as (rnd & _ & E). apply bind_ok in E as (pp & _ & E). apply bind_ok in E as (f1 & E1 & E). apply bind_ok in E as (b & _ & E). apply IH in E. rewrite E.
  unfold F_MergeRoot in E1. repeat (apply bind_ok in E1 as (? & _ & E1)). by injection E1 as <-.
Qed.
Lemma add_leaf_posmap f l f' : F_add_leaf H f l = Ok f' -> f_posmap f' = <[l.1 := f_n f]> (f_posmap f).
Proof.
  intros E. unfold F_add_leaf in E. apply bind_ok in E as (f1 & E1 & E). apply bind_ok in E as (f2 & E2 & E). apply add_merge_posmap in E2.
  assert (E3 : f_posmap f1 = <[l.1 := f_n f]> (f_posmap f)) by (unfold F_NewLeaf in E1; repeat (apply bind_ok in E1 as (? & _ & E1)); by injection E1 as <-).
  rewrite E3 in E2. rewrite <- E2. destruct (_ || _); [by injection E as <-|]. repeat (apply bind_ok in E as (? & _ & E)). by injection E as <-.
Qed.
Lemma add_leaves_posmap (ls : list leaf) : forall f f', foldM (F_add_leaf H) f ls = Ok f' -> N.of_nat (base.size (f_posmap f')) <= N.of_nat (base.size (f_posmap f)) + size ls.
Proof.
  induction ls as [|l ls IH]; intros f f' E; cbn [foldM] in E; [injection E as <-; unfold size; cbn [length]; lia|].
  apply bind_ok in E as (f1 & E1 & E). apply IH in E. apply add_leaf_posmap in E1. rewrite E1 in E. unfold size in *. cbn [length].
  assert (Hm : (base.size (<[l.1 := f_n f]> (f_posmap f)) <= S (base.size (f_posmap f)))%nat); [|lia].
  destruct (f_posmap f !! l.1) as [q|] eqn:El; [rewrite map_size_insert_Some by (by exists q); lia|rewrite map_size_insert_None by done; lia].
Qed.
Lemma new_forest_lem n (adds : list leaf) old : 0 < n -> n + size adds < 2 ^ 64 ->
  (forall b f', F_Modify H (RamForest_new n) adds [] <> Ok (b, f')) /\ F_Commit (RamForest_new n) old = Abort.
Proof.
  intros Hn H64. split.
  - intros b f' E. unfold F_Modify in E. change (F_Remove H (RamForest_new n) []) with (@Ok (bool * forest) (true, RamForest_new n)) in E. cbn [bind fst snd negb] in E.
    apply bind_ok in E as (f2 & E2 & _). unfold F_Add in E2. cbn [f_n RamForest_new] in E2. apply bind_ok in E2 as (d & _ & E2). apply bind_ok in E2 as (? & _ & E2).
    apply bind_ok in E2 as (f3 & E3 & E2). apply bind_ok in E2 as (? & A1 & E2). apply bind_ok in E2 as (? & A2 & E2). apply add_leaves_posmap in E3.
    assert (Es : base.size (f_posmap (set_data (RamForest_new n) d)) = 0%nat) by apply map_size_empty. rewrite Es in E3. unfold assert_ in A1, A2.
    destruct (N.eqb_spec (add64 n (size adds)) (f_n f3)) as [F1|]; [|done]. destruct (N.eqb_spec (N.of_nat (base.size (f_posmap f3))) (f_n f3)) as [F2|]; [|done].
    assert (T : two64 = 2 ^ 64) by done. rewrite add64_small in F1 by lia. lia.
  - unfold F_Commit, F_commit_blocks. cbn [f_n f_data RamForest_new]. assert (E : commit_rows (N.to_nat (NumRows n)) 0 n [[]] = Abort); [|by rewrite E].
    assert (Ea : (n <=? size (@nil N)) = false) by (apply N.leb_gt; done). destruct (N.to_nat (NumRows n)); cbn [commit_rows]; change (vec_get [[]] 0) with (Ok (@nil N)); cbn [bind]; by rewrite Ea.
Qed.
End More.

(** ** ComparePositionMap *)
Lemma iterates_elem es m h p : iterates es m -> (h, p) ∈ es <-> m !! h = Some p.
Proof. intros E. rewrite <- elem_of_map_to_list. unfold iterates in E. by rewrite E. Qed.
Lemma compare_in (other : gmap N N) es : (forall h p, (h, p) ∈ es -> is_Some (other !! h)) ->
  exists b, ComparePositionMap es other = Ok b /\ (b = true <-> forall h p, (h, p) ∈ es -> other !! h = Some p).
Proof.
  induction es as [|[h p] es IH]; intros Hd; cbn [ComparePositionMap].
  - exists true. split; [done|]. split; [|done]. intros _ h p Hin. by apply elem_of_nil in Hin.
  - destruct (Hd h p ltac:(left)) as [q Eq]. rewrite Eq. destruct (N.eqb_spec q p) as [->|Hne]; cbn [negb].
    + destruct IH as (b & E & Hb); [intros; eapply Hd; by right|]. exists b. split; [done|]. rewrite Hb. split.
      * intros Hx k v [[= -> ->]|Hin]%elem_of_cons; [done|by apply Hx].
      * intros Hx k v Hin. apply Hx. by right.
    + exists false. split; [done|]. split; [done|]. intros Hx. specialize (Hx h p ltac:(left)). congruence.
Qed.
Lemma compare_lem es (m other : gmap N N) : iterates es m -> (forall h, is_Some (m !! h) -> is_Some (other !! h)) ->
  exists b, ComparePositionMap es other = Ok b /\ (b = true <-> forall h p, m !! h = Some p -> other !! h = Some p).
Proof.
  intros Hi Hd. destruct (compare_in other es) as (b & E & Hb).
  - intros h p Hin. apply Hd. exists p. by apply (iterates_elem es).
  - exists b. split; [done|]. rewrite Hb. split; intros Hx h p; rewrite ?(iterates_elem es m h p Hi); [|by apply Hx].
    intros Hin. apply Hx. by apply (iterates_elem es m h p Hi).
Qed.
(** If an entry is missing, some order meets it first. *)
Lemma compare_missing (m other : gmap N N) h p : m !! h = Some p -> other !! h = None -> exists es, iterates es m /\ ComparePositionMap es other = UB.
Proof.
  intros E E'. apply elem_of_map_to_list in E as (l1 & l2 & E)%elem_of_list_split. exists ((h, p) :: l1 ++ l2). split.
  - unfold iterates. rewrite E. apply Permutation_middle.
  - cbn [ComparePositionMap]. by rewrite E'.
Qed.

(** ** Witnesses *)
Definition adds49 : list leaf := [(10, false); (11, false)].
Definition u49 : undo_batch := UndoBatch 1 [0] [10].
Definition v49 : undo_batch := UndoBatch 0 [1; 0] [98; 99].
Definition run49 (H : hash -> hash -> hash) : res (N * bool * N) :=
  let* r := F_Modify H (RamForest_new 0) adds49 [] in
  let* q := F_Undo H r.2 u49 in Ok (f_n r.2, q.1, f_n q.2).
Definition run49' (H : hash -> hash -> hash) : res (bool * forest) :=
  let* r := F_Modify H (RamForest_new 0) adds49 [] in F_Undo H r.2 v49.
Lemma run49_ok H : run49 H = Ok (2, false, 1).
Proof. vm_compute. reflexivity. Qed.
Lemma run49'_ok H : run49' H = UB.
Proof. vm_compute. reflexivity. Qed.
Lemma add49_ok H : match F_Modify H (RamForest_new 0) adds49 [] with Ok (b, _) => b | _ => false end = true.
Proof. vm_compute. reflexivity. Qed.
Lemma add49_map H : match F_Modify H (RamForest_new 0) adds49 [] with Ok (b, f) => Some (b, f_posmap f !! 10) | _ => None end = Some (true, Some 0).
Proof. vm_compute. reflexivity. Qed.
Lemma undo_refuted_lem H : exists f u f' v, F_Modify H (RamForest_new 0) adds49 [] = Ok (true, f) /\
  F_Undo H f u = Ok (false, f') /\ f_n f = 2 /\ f_n f' = 1 /\ F_Undo H f v = UB /\
  (exists bytes w, ub_Unserialize w bytes = Ok (true, u)) /\ exists bytes w, ub_Unserialize w bytes = Ok (true, v).
Proof.
  pose proof (run49_ok H) as E. pose proof (run49'_ok H) as E'. pose proof (add49_ok H) as E0. unfold run49 in E. unfold run49' in E'.
  destruct (F_Modify H (RamForest_new 0) adds49 []) as [[b f]| | | |]; try done. cbn in E0. subst b. cbn [bind snd] in E, E'. apply bind_ok in E as ([b f'] & E1 & E). cbn [fst snd] in E.
  injection E as En -> En'. exists f, u49, f', v49. split; [done|]. split; [done|]. split; [done|]. split; [done|]. split; [done|]. split.
  - destruct (ub_roundtrip (UndoBatch 0 [] []) 1 [0] [10]) as (bytes & _ & _ & Eu); [done|unfold fits; repeat constructor..|by eexists _, _].
  - destruct (ub_roundtrip (UndoBatch 0 [] []) 0 [1; 0] [98; 99]) as (bytes & _ & _ & Eu); [done|unfold fits; repeat constructor..|by eexists _, _].
Qed.
Lemma compare_refuted_lem H : exists f, F_Modify H (RamForest_new 0) adds49 [] = Ok (true, f) /\
  forall es, iterates es (f_posmap f) -> ComparePositionMap es (f_posmap (RamForest_new 0)) = UB.
Proof.
  pose proof (add49_map H) as E0. destruct (F_Modify H (RamForest_new 0) adds49 []) as [[b f]| | | |]; try done. apply (inj Some) in E0. injection E0 as -> E0.
  exists f. split; [done|]. intros [|[h p] es] Hi.
  - apply (iterates_elem _ _ 10 0) in Hi. apply Hi in E0. by apply elem_of_nil in E0.
  - cbn [ComparePositionMap RamForest_new f_posmap]. by rewrite lookup_empty.
Qed.
Lemma compare_forest_lem H f us g vs es : reachable H f us -> reachable H g vs -> iterates es (f_posmap f) ->
  (forall i h, i < f_n f -> F_GetLeaf f i = Ok h -> exists j, j < f_n g /\ F_GetLeaf g j = Ok h) ->
  exists b, ComparePositionMap es (f_posmap g) = Ok b /\
    (b = true <-> forall i h, i < f_n f -> F_GetLeaf f i = Ok h -> i < f_n g /\ F_GetLeaf g i = Ok h).
Proof.
  intros Hf Hg Hit Hin. destruct (compare_lem es (f_posmap f) (f_posmap g) Hit) as (b & E & Hb).
  - intros h [p [Hp Ep]%(C07_lem H f us h p Hf)]. destruct (Hin p h Hp Ep) as (j & Hj & Ej). exists j. by apply (C07_lem H g vs).
  - exists b. split; [done|]. rewrite Hb. split.
    + intros Hx i h Hi Eh. apply (C07_lem H g vs _ _ Hg). apply Hx. by apply (C07_lem H f us).
    + intros Hx h p [Hp Ep]%(C07_lem H f us h p Hf). apply (C07_lem H g vs _ _ Hg). by apply Hx.
Qed.
Lemma compare_exact_lem H f us g vs : reachable H f us -> reachable H g vs ->
  (forall es, iterates es (f_posmap f) -> exists b, ComparePositionMap es (f_posmap g) = Ok b) <->
  (forall i h, i < f_n f -> F_GetLeaf f i = Ok h -> exists j, j < f_n g /\ F_GetLeaf g j = Ok h).
Proof.
  intros Hf Hg. split.
  - intros Hx i h Hi Eh. destruct (f_posmap g !! h) as [j|] eqn:Ej.
    + exists j. by apply (C07_lem H g vs _ _ Hg).
    + destruct (compare_missing (f_posmap f) (f_posmap g) h i) as (es & Hes & E); [by apply (C07_lem H f us)|done|]. destruct (Hx es Hes) as [b Eb]. congruence.
  - intros Hx es Hes. destruct (compare_forest_lem H f us g vs es Hf Hg Hes Hx) as (b & E & _). by exists b.
Qed.
