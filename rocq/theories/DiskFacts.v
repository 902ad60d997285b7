(** * DiskFacts: crashes during Commit and Undo after reopening (proofs) *)
From Verif Require Import Base StateModel CodecModel ForestModel PosSpec PosFacts MerkleSpec CodecSpec CodecFacts ForestFacts SpecFacts ForestInv CommitFacts ForestSpec HistFacts ForestExamples.
From Coq Require Import ZifyBool ZifyNat ZifyN.
Ltac Zify.zify_post_hook ::= idtac.

Lemma holds_new : holds_leaves (RamForest_new 0) [].
Proof. split; [done|]. intros i Hi. change (size (@nil N)) with 0 in Hi. lia. Qed.

(** ** C12 *)
Definition w3 : list leaf := [(10, false); (11, false); (12, false)].
Definition run12 : res (bool * forest) :=
  let* r := F_Modify ex_H (RamForest_new 0) w3 [] in
  let* r2 := F_ModifyUndo ex_H r.2 [] [1; 2] in
  let* b := F_Commit r2.2 [] in
  let* g := F_Restore b in
  match r2.1.2 with Some u => F_Undo ex_H g u | None => Abort end.
Lemma run12_ub : run12 = UB.
Proof. vm_compute. reflexivity. Qed.

Lemma C12_refuted_lem : exists H f us u f' bytes g, reachable H f us /\
  F_ModifyUndo H f [] [1; 2] = Ok (true, Some u, f') /\ F_Commit f' [] = Ok bytes /\ F_Restore bytes = Ok g /\
  same_forest f' g /\ F_Undo H g u = UB.
Proof.
  destruct (step_ok ex_H (RamForest_new 0) [] [] w3 [] ltac:(constructor) holds_new) as (u0 & f & E0 & _ & _ & H1 & H2).
  { done. } { apply valid_nil. } { apply (bool_decide_unpack _). by vm_compute. }
  destruct (step_ok ex_H f [] _ [] [1; 2] H1 H2) as (u & f' & _ & E1 & H3 & _ & H4).
  { done. } { split; repeat constructor. } { apply (bool_decide_unpack _). by vm_compute. }
  assert (Els : spec_remove (spec_remove [] [] ++ w3.*1) [1; 2] ++ (@nil leaf).*1 = [10]) by (by vm_compute).
  rewrite Els in H4. destruct (C10_lem ex_H f' [u] [] H3) as (bytes & g & E2 & E3 & E4).
  { exact ex_H_fits. }
  { intros i h Hi E. destruct H4 as [Hn Hl]. rewrite Hn in Hi. rewrite Hl in E by done. change (size [10]) with 1 in Hi. assert (i = 0) as -> by lia.
    assert (h = 10) as -> by (by injection E). done. }
  exists ex_H, f, [], u, f', bytes, g. split; [done|]. split; [done|]. split; [done|]. split; [done|]. split; [done|].
  rewrite <- run12_ub. unfold run12. rewrite E0. cbn [bind snd]. rewrite E1. cbn [bind fst snd]. rewrite E2. cbn [bind]. rewrite E3. done.
Qed.

Lemma C12_partial_lem H f us (adds : list leaf) ts u f' old R R' : reachable H f us -> f_n f + size adds < 2 ^ 31 + size ts ->
  F_ModifyUndo H f adds ts = Ok (true, Some u, f') -> (forall a b, H a b < 256 ^ 32) ->
  (forall i h, i < f_n f' -> F_GetLeaf f' i = Ok h -> h < 256 ^ 32) ->
  is_height (f_n f) R -> is_height (f_n f') R' -> R <= R' ->
  exists bytes g f'', F_Commit f' old = Ok bytes /\ F_Restore bytes = Ok g /\ F_Undo H g u = Ok (true, f'') /\ same_forest f f''.
Proof.
  intros Hr Hb E HH Hl <-%NumRows_height <-%NumRows_height HR. assert (H31 : 2 ^ 31 <= 2 ^ 62) by done.
  destruct (reachable_inv H f us Hr) as (ls & Hi & Hn & _). pose proof (inv_wide _ _ _ Hi) as [Hfn _]. rewrite Hfn in Hb.
  destruct (valid_dec (size ls) ts) as [Hv|Hv]; [|destruct (F_Modify_invalid H f ls adds ts Hfn Hv) as [_ E']; congruence].
  destruct (F_Modify_ok H f ls adds ts Hi Hn Hb Hv) as [(_ & f2 & u' & _ & E' & Hi' & Hn2 & Hs & He & _)|(_ & _ & E')]; [|congruence].
  assert (f2 = f' /\ u' = u) as [-> ->] by (split; congruence). clear E'. remember (spec_remove ls ts ++ adds.*1) as ls' eqn:Els.
  pose proof (inv_wide _ _ _ Hi') as [Hfn' _]. assert (Hmax : int_max + 1 = 2 ^ 31) by done.
  pose proof (F_Commit_ok H f' ls' old Hi' ltac:(lia)) as Ec. remember (overwrite old _) as bytes eqn:Eb. clear Eb.
  assert (HF : Forall (fun h => h < 256 ^ 32) ls').
  { apply Forall_lookup. intros i h Hih. assert (Hlt : N.of_nat i < size ls') by (apply lookup_lt_Some in Hih; unfold size; lia).
    apply (Hl (N.of_nat i) h); [lia|]. destruct (F_GetLeaf_ok H f' ls' Hi' ltac:(lia)) as [_ Hg]. rewrite Hg by done.
    f_equal. unfold leaf_at. rewrite Nat2N.id. by apply list_lookup_total_correct. }
  destruct (F_Restore_ok H f' ls' old bytes Hi' ltac:(lia) HH HF Ec) as (g & Eg & Hig).
  pose proof (inv_rows _ _ _ Hig) as Hrows. rewrite Hfn, Hfn' in HR.
  destruct (Undo_entry H g ls' u ls Hig Hn2 He ltac:(lia) Hn) as (f3 & E3 & Hi3 & _).
  exists bytes, g, f3. split; [done|]. split; [done|]. split; [done|]. apply (inv_same H f f3 ls Hi Hi3). lia.
Qed.

(** ** C11 *)
Definition a11 : list leaf := [(10, false)].
Definition b11 : list leaf := [(267, false)].
(** The roots on disk after [k] bytes of the second Commit, with the roots of
    the two forests. *)
Definition run11 (k : nat) : res (list hash * list hash * list hash) :=
  let* r := F_Modify ex_H (RamForest_new 0) a11 [] in
  let* old := F_Commit r.2 [] in
  let* r2 := F_Modify ex_H r.2 b11 [0] in
  let* bs := F_commit_blocks r2.2 in
  let* g := F_Restore (overwrite old (take k (concat bs))) in
  Ok (F_Roots r.2, F_Roots r2.2, F_Roots g).
Lemma run11_mixed : run11 39 = Ok ([10], [267], [266]).
Proof. vm_compute. reflexivity. Qed.
Lemma C11_refuted_lem : exists H f us f' us' old bs k g, reachable H f us /\ reachable H f' us' /\ F_Commit f [] = Ok old /\
  F_commit_blocks f' = Ok bs /\ F_Restore (overwrite old (take k (concat bs))) = Ok g /\ ~ same_forest f g /\ ~ same_forest f' g.
Proof.
  pose proof run11_mixed as E. unfold run11 in E.
  destruct (step_ok ex_H (RamForest_new 0) [] [] a11 [] ltac:(constructor) holds_new) as (u0 & f & E0 & _ & _ & H1 & H2).
  { done. } { apply valid_nil. } { apply (bool_decide_unpack _). by vm_compute. }
  destruct (step_ok ex_H f [] _ b11 [0] H1 H2) as (u & f' & E1 & _ & _ & H3 & _).
  { done. } { split; repeat constructor. } { apply (bool_decide_unpack _). by vm_compute. }
  rewrite E0 in E. cbn [bind snd] in E. apply bind_ok in E as (old & E2 & E). rewrite E1 in E. cbn [bind snd] in E.
  apply bind_ok in E as (bs & E3 & E). apply bind_ok in E as (g & E4 & E). apply (f_equal (fun x => match x with Ok y => y | _ => ([], [], []) end)) in E.
  assert (Ea := f_equal (fun x => x.1.1) E). assert (Eb := f_equal (fun x => x.1.2) E). assert (Ec := f_equal snd E). cbn [fst snd] in Ea, Eb, Ec.
  exists ex_H, f, [], f', [], old, bs, 39%nat, g. split; [done|]. split; [done|]. split; [done|]. split; [done|]. split; [done|].
  split; intros (_ & Ex & _); congruence.
Qed.

(** The end points are fine, and so is the whole header if the number of leaves
    did not change. *)
Lemma commit_header f old bytes : F_Commit f old = Ok bytes -> exists bs x, F_commit_blocks f = Ok bs /\ concat bs = WriteBE64 (f_n f) ++ x /\ bytes = overwrite old (concat bs).
Proof.
  unfold F_Commit. intros E. apply bind_ok in E as (bs & E & E'). exists bs. assert (bytes = overwrite old (concat bs)) as -> by (symmetry; by apply (f_equal (fun x => match x with Ok y => y | _ => [] end)) in E').
  unfold F_commit_blocks in E. apply bind_ok in E as (b & E & E2). assert (bs = WriteBE64 (f_n f) :: b) as -> by (symmetry; by apply (f_equal (fun x => match x with Ok y => y | _ => [] end)) in E2).
  exists (concat b). split; [|split; [|done]].
  - unfold F_commit_blocks. by rewrite E.
  - done.
Qed.
Lemma C11_partial_lem f f' old0 old bs k : F_Commit f old0 = Ok old -> F_commit_blocks f' = Ok bs ->
  (k = 0%nat \/ (k <= 8)%nat /\ f_n f' = f_n f) -> overwrite old (take k (concat bs)) = old.
Proof.
  intros E1 E2 [->|[Hk Hn]]; [done|]. apply commit_header in E1 as (bs1 & x & _ & Ex & ->).
  destruct (commit_header f' [] (overwrite [] (concat bs))) as (bs2 & y & E3 & Ey & _).
  { unfold F_Commit. by rewrite E2. }
  assert (bs2 = bs) as -> by congruence. rewrite Hn in Ey. rewrite Ey.
  assert (Eo : exists z, overwrite old0 (concat bs1) = WriteBE64 (f_n f) ++ z) by (unfold overwrite; rewrite Ex, <- app_assoc; by eexists).
  destruct Eo as [z ->].
  assert (Hb : length (WriteBE64 (f_n f)) = 8%nat) by apply be_bytes_length. unfold overwrite. rewrite take_app_le by lia.
  rewrite take_length_le by lia. rewrite drop_app_le by lia. by rewrite app_assoc, take_drop.
Qed.

(** ** C39 *)
Lemma C39_partial_lem H f us ls p hs : reachable H f us -> holds_leaves f ls ->
  F_Verify f p hs = true <-> forall h, h ∈ hs -> h ∈ ls.
Proof.
  intros Hr Hh. unfold F_Verify. rewrite forallb_forall. pose proof Hh as [Hn Hl].
  assert (Hin : forall h, (match f_posmap f !! h with Some _ => true | None => false end) = true <-> h ∈ ls).
  { intros h. split.
    - intros Hx. destruct (f_posmap f !! h) as [q|] eqn:E; [|done]. apply (C07_lem H f us h q Hr) in E as [Hq E]. rewrite Hn in Hq. rewrite Hl in E by done.
      assert (leaf_at ls q = h) as <- by congruence. unfold leaf_at, size in *. apply elem_of_list_lookup_total_2. lia.
    - intros [i Hx]%elem_of_list_lookup. assert (Hlt : N.of_nat i < size ls) by (apply lookup_lt_Some in Hx; unfold size; lia).
      assert (E : f_posmap f !! h = Some (N.of_nat i)).
      { apply (C07_lem H f us); [done|]. rewrite Hn. split; [done|]. rewrite Hl by done. f_equal. unfold leaf_at. rewrite Nat2N.id.
        by apply list_lookup_total_correct. }
      by rewrite E. }
  split.
  - intros Hx h Hh'. apply Hin, Hx. by apply elem_of_list_In.
  - intros Hx h Hh'. apply Hin, Hx. by apply elem_of_list_In.
Qed.
Lemma C39_refuted_lem : exists H f us h, reachable H f us /\ forall p, F_Verify f p [h] = true.
Proof.
  destruct ex_history as (f & u0 & _ & _ & Hr & Hh & _). exists ex_H, f, [u0], 13. split; [done|]. intros p.
  apply (C39_partial_lem ex_H f [u0] ex_ls p [13] Hr Hh). intros h ->%elem_of_list_singleton. apply (bool_decide_unpack _). by vm_compute.
Qed.
