(** * DiskMore: exactly when Undo works after reopening (proofs) *)
From stdpp Require Import sorting.
From Verif Require Import Base StateModel CodecModel ForestModel PosSpec PosFacts PathFacts MerkleSpec CodecSpec CodecFacts ForestFacts
  RemoveFacts ForestInv AddFacts UndoFacts CommitFacts ForestSpec HistFacts SpecFacts PosmapFacts ForestExamples FileSpec FileFacts.
From Coq Require Import ZifyBool ZifyNat ZifyN.
Ltac Zify.zify_post_hook ::= idtac.

Lemma vec_set_size {A} (l : list A) i x l' : vec_set l i x = Ok l' -> size l' = size l /\ i < size l.
Proof. unfold vec_set. destruct (N.ltb_spec i (size l)); [|done]. intros E. apply Ok_inv in E. subst l'. split; [apply size_insert|done]. Qed.

(** ** Undo needs all rows *)
Section Undo.
Context (H : hash -> hash -> hash).

Lemma ReHash_rows f st d f' : F_ReHash H f st d = Ok f' -> size (f_data f') = size (f_data f).
Proof.
  unfold F_ReHash. intros E. do 7 (apply bind_inv in E as (? & _ & E)). apply bind_inv in E as (rd & _ & E). apply bind_inv in E as (d' & Ed & E).
  apply Ok_inv in E. subst f'. cbn [f_data set_data]. by apply vec_set_size in Ed as [? _].
Qed.
Lemma rehash_rows st dirt : forall f acc r, undo_rehash H f st dirt acc = Ok r -> size (f_data r.1) = size (f_data f).
Proof.
  induction dirt as [|d ds IH]; intros f acc r; cbn [undo_rehash].
  - intros E. apply Ok_inv in E. by subst r.
  - intros E. apply bind_inv in E as (f1 & E1 & E). apply bind_inv in E as (p & _ & E). apply IH in E. rewrite E. by eapply ReHash_rows.
Qed.
Lemma undo_rows_rows st : forall k r f dirt f', undo_rows H k r st f dirt = Ok f' -> (0 < k)%nat -> r + N.of_nat k - 1 < size (f_data f).
Proof.
  induction k as [|k IH]; intros r f dirt f'; [lia|]. cbn [undo_rows]. intros E _.
  apply bind_inv in E as (rd & _ & E). apply bind_inv in E as (sz & _ & E). apply bind_inv in E as (d & Ed & E). apply bind_inv in E as (x & Ex & E).
  apply vec_set_size in Ed as [Ed Hr]. destruct k as [|k]; [lia|].
  apply IH in E; [|lia]. apply rehash_rows in Ex. cbn [f_data set_data] in Ex. lia.
Qed.
Lemma SwapRange_rows f a b k f' : F_SwapRange f a b k = Ok f' -> size (f_data f') = size (f_data f).
Proof.
  unfold F_SwapRange. intros E. do 5 (apply bind_inv in E as (? & _ & E)). apply bind_inv in E as (d' & Ed & E).
  apply Ok_inv in E. subst f'. cbn [f_data set_data]. by apply vec_set_size in Ed as [? _].
Qed.
Lemma UpdateRange_rows f a b k f' : F_UpdatePositionMapForRange f a b k = Ok f' -> size (f_data f') = size (f_data f).
Proof.
  unfold F_UpdatePositionMapForRange. destruct (_ =? 0).
  - intros E. apply Ok_inv in E. by subst.
  - intros E. do 2 (apply bind_inv in E as (? & _ & E)). apply Ok_inv in E. by subst.
Qed.
Lemma swaps_rows ss : forall f dirt r, undo_swaps_loop f dirt ss = Ok r -> size (f_data r.1) = size (f_data f).
Proof.
  induction ss as [|s ss IH]; intros f dirt r; cbn [undo_swaps_loop].
  - intros E. apply Ok_inv in E. by subst r.
  - intros E. apply bind_inv in E as (f1 & E1 & E). apply bind_inv in E as (f2 & E2 & E). apply IH in E. rewrite E.
    apply SwapRange_rows in E2. apply UpdateRange_rows in E1. lia.
Qed.

Lemma undo_needs f u f' n0 : F_Undo H f u = Ok (true, f') -> size (f_data f) <> 0 ->
  sub64 (add64 (f_n f) (size (m_deleted_positions u))) (m_num_additions u) = n0 -> NumRows n0 < size (f_data f).
Proof.
  intros E Hd <-. unfold F_Undo in E. destruct (N.eqb_spec (size (f_data f)) 0); [done|]. cbv zeta in E.
  remember (sub64 (add64 (f_n f) (size (m_deleted_positions u))) (m_num_additions u)) as n0 eqn:En0.
  apply bind_inv in E as (swaps & _ & E). apply bind_inv in E as (e & _ & E).
  destruct e.1; cbn [negb] in E; [|done].
  apply bind_inv in E as (row0 & _ & E). apply bind_inv in E as (? & _ & E). apply bind_inv in E as ([[[placed row0'] m'] dirt] & _ & E).
  apply bind_inv in E as (d & Ed & E). destruct placed; cbn [negb] in E; [|done].
  apply bind_inv in E as (fs & Es & E). apply bind_inv in E as (dirt0 & _ & E). apply bind_inv in E as (f2 & E2 & E).
  apply swaps_rows in Es. cbn [f_data] in Es. apply vec_set_size in Ed as [Ed _].
  destruct (N.eq_dec (NumRows n0) 0) as [->|Hne]; [lia|].
  apply undo_rows_rows in E2; [|lia]. lia.
Qed.
End Undo.

(** ** Restore makes the rows of the leaves it has *)
Lemma restore_rows_rows bytes n : forall fuel off row d (m : gmap N N) r,
  restore_rows fuel bytes n off (N.of_nat row) (n / 2 ^ N.of_nat row) d m = Ok r -> size d = N.of_nat row + 1 ->
  (row = 0%nat \/ 2 ^ N.of_nat row <= 2 * n) ->
  exists row', size r.1 = N.of_nat row' + 1 /\ n < 2 ^ N.of_nat row' /\ (row' = 0%nat \/ 2 ^ N.of_nat row' <= 2 * n).
Proof.
  induction fuel as [|fuel IH]; intros off row d m r; cbn [restore_rows]; destruct (N.eqb_spec (n / 2 ^ N.of_nat row) 0) as [E|E]; try done.
  1, 2: intros Er Hd Hr; apply Ok_inv in Er; subst r; exists row; split; [done|]; split; [|done];
    apply N.div_small_iff in E; [done|]; pose proof (pow_pos (N.of_nat row)); lia.
  intros Er Hd Hr. apply bind_inv in Er as (pos & _ & Er). apply bind_inv in Er as (r1 & _ & Er). apply bind_inv in Er as (rd & _ & Er).
  apply bind_inv in Er as (d' & Ed & Er). apply vec_set_size in Ed as [Ed _].
  rewrite N.shiftr_div_pow2 in Er. change (2 ^ 1) with 2 in Er.
  assert (Ediv : n / 2 ^ N.of_nat row / 2 = n / 2 ^ N.of_nat (S row)) by (rewrite <- div_pow_S; f_equal; f_equal; lia).
  rewrite Ediv in Er. replace (N.of_nat row + 1) with (N.of_nat (S row)) in Er by lia. apply IH in Er; [done| |].
  - rewrite CodecFacts.size_app. unfold size at 2. cbn [length]. lia.
  - right. rewrite pow_nat_S. pose proof (pow_pos (N.of_nat row)) as HP. revert E HP. generalize (2 ^ N.of_nat row). intros P E HP.
    destruct (N.lt_ge_cases n P) as [Hlt|]; [by rewrite N.div_small in E|lia].
Qed.
Lemma Restore_rows bytes f : F_Restore bytes = Ok f ->
  exists row, size (f_data f) = N.of_nat row + 1 /\ f_n f < 2 ^ N.of_nat row /\ (row = 0%nat \/ 2 ^ N.of_nat row <= 2 * f_n f).
Proof.
  unfold F_Restore. intros E. apply bind_inv in E as (n & _ & E). apply bind_inv in E as (r & Er & E).
  unfold F_RestoreRoots in E. apply bind_inv in E as (ps & _ & E). apply bind_inv in E as (rs & _ & E). apply Ok_inv in E. subst f.
  cbn [set_roots f_data f_n]. apply (restore_rows_rows bytes n 65 8 0 [[]] ∅ r); [|done|by left].
  change (2 ^ N.of_nat 0) with 1. rewrite N.div_1_r. exact Er.
Qed.

(** ** C12 *)
Lemma reopen_exact_lem H f us (adds : list leaf) ts u f' old R : reachable H f us -> f_n f + size adds < 2 ^ 31 + size ts ->
  F_ModifyUndo H f adds ts = Ok (true, Some u, f') -> (forall a b, H a b < 256 ^ 32) ->
  (forall i h, i < f_n f' -> F_GetLeaf f' i = Ok h -> h < 256 ^ 32) -> is_height (f_n f) R ->
  exists bytes g, F_Commit f' old = Ok bytes /\ F_Restore bytes = Ok g /\
    (R = 0 \/ 2 ^ R <= 2 * f_n f' -> exists f'', F_Undo H g u = Ok (true, f'') /\ same_forest f f'') /\
    ((exists f'', F_Undo H g u = Ok (true, f'')) -> R = 0 \/ 2 ^ R <= 2 * f_n f').
Proof.
  intros Hr Hb E HH Hl <-%NumRows_height. assert (H31 : 2 ^ 31 <= 2 ^ 62) by done.
  destruct (reachable_inv H f us Hr) as (ls & Hi & Hn & _). pose proof (inv_wide _ _ _ Hi) as [Hfn _]. rewrite Hfn in Hb.
  destruct (valid_dec (size ls) ts) as [Hv|Hv]; [|destruct (F_Modify_invalid H f ls adds ts Hfn Hv) as [_ E']; congruence].
  destruct (F_Modify_ok H f ls adds ts Hi Hn Hb Hv) as [(_ & f2 & u' & _ & E' & Hi' & Hn2 & Hs & He & _)|(_ & _ & E')]; [|congruence].
  assert (f2 = f' /\ u' = u) as [-> ->] by (split; congruence). clear E'. remember (spec_remove ls ts ++ adds.*1) as ls' eqn:Els.
  pose proof (inv_wide _ _ _ Hi') as [Hfn' _]. assert (Hmax : int_max + 1 = 2 ^ 31) by done.
  pose proof (F_Commit_ok H f' ls' old Hi' ltac:(lia)) as Ec. remember (overwrite old _) as bytes eqn:Eb. clear Eb.
  assert (HF : Forall (fun h => h < 256 ^ 32) ls').
  { apply Forall_lookup. intros i h Hih. assert (Hlt : N.of_nat i < size ls') by (apply lookup_lt_Some in Hih; unfold size; lia).
    apply (Hl (N.of_nat i) h); [lia|]. destruct (F_GetLeaf_ok H f' ls' Hi' ltac:(lia)) as [_ Hg]. rewrite Hg by done.
    f_equal. unfold leaf_at. rewrite Nat2N.id. by apply list_lookup_total_correct. }
  destruct (F_Restore_ok H f' ls' old bytes Hi' ltac:(lia) HH HF Ec) as (g & Eg & Hig).
  exists bytes, g. split; [done|]. split; [done|]. rewrite Hfn, Hfn'. pose proof (inv_wide _ _ _ Hig) as [Hgn _].
  destruct (Restore_rows bytes g Eg) as (row & Hrow & Hlt & Hmin). rewrite Hgn in Hlt, Hmin.
  assert (Hiff : NumRows (size ls) <= N.of_nat row <-> NumRows (size ls) = 0 \/ 2 ^ NumRows (size ls) <= 2 * size ls').
  { split.
    - intros Hle. destruct Hmin as [->|Hmin]; [left; lia|]. right. assert (2 ^ NumRows (size ls) <= 2 ^ N.of_nat row) by (by apply pow_mono). lia.
    - intros [->|Hle]; [lia|]. destruct (N.le_gt_cases (NumRows (size ls)) (N.of_nat row)) as [|Hgt]; [done|].
      assert (2 ^ (N.of_nat row + 1) <= 2 ^ NumRows (size ls)) by (apply pow_mono; lia). rewrite N.pow_add_r in H0. change (2 ^ 1) with 2 in H0. lia. }
  split.
  - intros Hc%Hiff. destruct (Undo_entry H g ls' u ls Hig Hn2 He ltac:(lia) Hn) as (f3 & E3 & Hi3 & _).
    exists f3. split; [done|]. apply (inv_same H f f3 ls Hi Hi3). lia.
  - intros [f3 E3]. apply Hiff. apply (undo_needs H g u f3 (size ls)) in E3; [lia|lia|].
    destruct He as (ls1 & as_ & hs & ts' & L0 & -> & Els' & Hsz & _). cbn [m_deleted_positions m_num_additions]. rewrite Hgn, Els', CodecFacts.size_app.
    assert (H64 : 2 ^ 31 + 2 ^ 31 < two64) by done. rewrite Els', CodecFacts.size_app in Hn2. rewrite add64_small by lia. rewrite sub64_small by lia. lia.
Qed.

Lemma ex_reopen : exists f us u f', reachable ex_H f us /\ f_n f + size ex_adds < 2 ^ 31 + size ex_ts /\
  F_ModifyUndo ex_H f ex_adds ex_ts = Ok (true, Some u, f') /\ (forall a b, ex_H a b < 256 ^ 32) /\
  (forall i h, i < f_n f' -> F_GetLeaf f' i = Ok h -> h < 256 ^ 32) /\ is_height (f_n f) 3 /\ 2 ^ 3 <= 2 * f_n f'.
Proof.
  destruct ex_history as (f & u0 & u & f' & Hr & _ & Hn & _ & E & _ & Hh' & Hn'). exists f, [u0], u, f'. rewrite Hn.
  split; [done|]. split; [done|]. split; [done|]. split; [exact ex_H_fits|]. split; [|split].
  - intros i h Hi. destruct Hh' as [_ Hl]. rewrite Hn' in Hi. rewrite (Hl i Hi). intros Ei. apply Ok_inv in Ei. subst h.
    assert (HF : Forall (λ h, h < 256 ^ 32) ex_ls') by (repeat constructor). rewrite Forall_lookup in HF. eapply (HF (N.to_nat i)).
    apply leaf_at_lookup. split; [done|done].
  - apply NumRows_height. vm_compute. reflexivity.
  - rewrite Hn'. vm_compute. congruence.
Qed.
