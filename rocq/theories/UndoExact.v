(** * UndoExact: exactly which foreign batches are undone (proofs) *)
From stdpp Require Import sorting.
From Verif Require Import Base StateModel CodecModel ForestModel PosSpec PosFacts PathFacts MerkleSpec CodecSpec CodecFacts TargetFacts ForestFacts
  RowFacts TransformFacts SpecFacts RemoveFacts ForestInv AddFacts UndoFacts ForestSpec HistFacts PosmapFacts ForestMore DiskMore ForestExamples.
From Coq Require Import ZifyBool ZifyNat ZifyN.
Ltac Zify.zify_post_hook ::= idtac.

Section Exact.
Context (H : hash -> hash -> hash).
Implicit Types (f : forest) (ls : list hash).

Lemma undo_not_false f us ls k ts hs f' : reachable H f us -> holds_leaves f ls -> k <= size ls -> size hs = size ts ->
  let ls1 := take (N.to_nat (size ls - k)) ls in let n0 := size ls1 + size ts in
  n0 < 2 ^ 31 -> valid_targets n0 ts -> NoDup (ls1 ++ hs) -> F_Undo H f (UndoBatch k ts hs) <> Ok (false, f').
Proof.
  intros Hr Hh Hk Hhs ls1 n0 Hn0 Hv Hnd EU. destruct (reachable_holds H f us ls Hr Hh) as (Hi & Hn & _).
  remember (drop (N.to_nat (size ls - k)) ls) as as_ eqn:Eas. assert (El : ls = ls1 ++ as_) by (rewrite Eas; symmetry; apply take_drop).
  assert (Hk' : size as_ = k) by (rewrite Eas; unfold size in *; rewrite drop_length; lia). clearbody ls1. clear Eas.
  remember (leaf_row (replicate (N.to_nat n0) 0) ts) as L0 eqn:EL0.
  assert (Es : size (replicate (N.to_nat n0) 0) = n0) by (unfold size; rewrite replicate_length; lia).
  assert (HL0 : size L0 = n0) by (by rewrite EL0, leaf_row_size). assert (Hdead : dead 0 L0 = ts) by (rewrite EL0; apply leaf_row_dead; by rewrite Es).
  assert (H62 : 2 ^ 31 <= 2 ^ 61) by done. assert (H64 : 2 ^ 62 + 2 ^ 62 < two64) by done. assert (H61 : 2 ^ 61 + 2 ^ 61 = 2 ^ 62) by done. assert (Hmax : int_max + 1 = 2 ^ 31) by done.
  subst ls. assert (Hnl : NoDup (ls1 ++ as_)) by (by eapply inv_NoDup). destruct Hi as [Hw Hnode Hp Hroots Hrows]. unfold n0 in *. clear n0. remember (size ls1 + size ts) as n0 eqn:En0.
  remember (size ls1) as n1 eqn:En1. assert (Hsz : size (ls1 ++ as_) = n1 + k) by (unfold size in *; rewrite app_length; lia). rewrite Hsz in *.
  pose proof Hw as [Hfn Hlen]. revert EU. unfold F_Undo. cbn [m_num_additions m_deleted_positions m_deleted_hashes].
  destruct (N.eqb_spec (size (f_data f)) 0); [lia|]. rewrite Hfn.
  rewrite add64_small by lia. rewrite !sub64_small by lia.
  replace (n1 + k + size ts - k) with n0 by lia. replace (n1 + k - k) with n1 by lia. replace (n1 + k - n1) with k by lia.
  destruct (undo_swaps_exist n0 L0 ltac:(lia) HL0) as (es & Eu & Hgood & Hact). rewrite Hdead in Eu. rewrite Eu. cbn [bind].
  destruct (undo_erase_ok f (n1 + k) k Hw ltac:(lia) (posmap_inj _ _ Hp) n1 (f_posmap f) ltac:(lia)) as (m & Em & Hm).
  { intros p Hpr E. assert (E2 := proj2 (Hp (G f 0 p) p) ltac:(split; [lia|done])). congruence. }
  rewrite Em. cbn [bind fst snd negb]. assert (HG0 : forall x, x < n1 + k -> G f 0 x = leaf_at (ls1 ++ as_) x).
  { intros x Hx. rewrite Hnode; [done|]. unfold node. change (2 ^ N.of_nat 0) with 1. lia. }
  rewrite vec_get_ok by lia. cbn [bind]. change (N.to_nat 0) with 0%nat. rewrite int_loop_ok by lia. cbn [bind].
  destruct (undo_place_ok n1 hs 0 (vec_resize (f_data f !!! 0%nat) n0 zero_hash) m []) as (row0 & Ep & _).
  { rewrite vec_resize_size. lia. }
  { rewrite vec_resize_size. lia. }
  { by apply NoDup_app in Hnd as (_ & _ & ?). }
  { intros h Hx. rewrite Hm. destruct (decide (h ∈ G f 0 <$> nseq n1 k)) as [Hin|Hin]; [done|].
    destruct (f_posmap f !! h) as [p|] eqn:E; [|done]. exfalso. apply Hp in E as [Hlt E]. destruct (N.lt_ge_cases p n1) as [Hp1|Hp1].
    - rewrite HG0, (leaf_at_app1 H) in E by lia. apply NoDup_app in Hnd as (_ & Hd & _). apply (Hd h); [|done]. rewrite <- E. unfold leaf_at. apply elem_of_list_lookup_total_2. unfold size in *. lia.
    - apply Hin. apply elem_of_list_fmap. exists p. split; [done|]. apply nseq_elem. lia. }
  rewrite Ep. cbn [bind]. rewrite vec_set_ok by lia. cbn [bind negb]. intros E.
  apply bind_inv in E as (fs & _ & E). apply bind_inv in E as (dirt0 & _ & E). apply bind_inv in E as (f2 & _ & E). apply bind_inv in E as (f3 & _ & E). discriminate E.
Qed.

Lemma undo_exact_lem f us ls k ts hs : reachable H f us -> holds_leaves f ls -> k <= size ls -> size hs = size ts ->
  let ls1 := take (N.to_nat (size ls - k)) ls in let n0 := size ls1 + size ts in
  n0 < 2 ^ 31 -> valid_targets n0 ts ->
  ((exists f', F_Undo H f (UndoBatch k ts hs) = Ok (false, f')) <-> ~ NoDup (ls1 ++ hs)) /\
  ((exists f', F_Undo H f (UndoBatch k ts hs) = Ok (true, f')) <-> NoDup (ls1 ++ hs) /\ forall R, is_height n0 R -> R < size (f_data f)) /\
  forall f', F_Undo H f (UndoBatch k ts hs) = Ok (true, f') ->
    exists ls0, holds_leaves f' ls0 /\ roots_of H ls0 (F_Roots f') /\ ls0 ≡ₚ ls1 ++ hs /\ spec_remove ls0 ts = ls1.
Proof.
  intros Hr Hh Hk Hhs ls1 n0 Hn0 Hv.
  assert (Hneed : forall f', F_Undo H f (UndoBatch k ts hs) = Ok (true, f') -> NumRows n0 < size (f_data f)).
  { intros f' E. destruct (reachable_holds H f us ls Hr Hh) as (Hi & Hn & _). pose proof (inv_rows _ _ _ Hi) as Hrows. apply (undo_needs H f _ f' n0 E); [lia|].
    pose proof Hh as [Hfn _]. cbn [m_num_additions m_deleted_positions]. assert (H64 : 2 ^ 31 + 2 ^ 62 < two64) by done.
    assert (Hs1 : size ls1 = size ls - k) by (unfold ls1, size in *; rewrite take_length; lia). unfold n0 in *. rewrite Hfn. rewrite add64_small by lia. rewrite sub64_small by lia. lia. }
  assert (Hdup : NoDup (ls1 ++ hs) \/ ~ NoDup (ls1 ++ hs)) by (destruct (decide (NoDup (ls1 ++ hs))); auto).
  assert (Hht : (forall R, is_height n0 R -> R < size (f_data f)) <-> NumRows n0 < size (f_data f)).
  { split; [intros HR; apply HR; by apply NumRows_height|by intros ? R <-%NumRows_height]. }
  destruct Hdup as [Hnd|Hnd].
  - split; [|split].
    + split; [intros [f' E]; by destruct (undo_not_false f us ls k ts hs f' Hr Hh Hk Hhs Hn0 Hv Hnd)|done].
    + rewrite Hht. split; [intros [f' E]; split; [done|by eapply Hneed]|]. intros [_ HR].
      destruct (undo_rows_lem H f us ls k ts hs Hr Hh Hk Hhs Hn0 Hv Hnd HR) as (f' & _ & E & _). by exists f'.
    + intros f' E. destruct (undo_rows_lem H f us ls k ts hs Hr Hh Hk Hhs Hn0 Hv Hnd (Hneed f' E)) as (f1 & ls0 & E1 & Hx). rewrite E in E1. apply Ok_inv in E1. injection E1 as ->. by exists ls0.
  - destruct (undo_dup_lem H f us ls k ts hs Hr Hh Hk Hhs Hn0 Hv Hnd) as [f1 E1]. rewrite E1. split; [|split].
    + split; [done|]. intros _. by exists f1.
    + split; [intros [f' E]; discriminate E|by intros [? _]].
    + intros f' E. discriminate E.
Qed.
End Exact.

(** One leaf is left of four, so that there are three rows: batches of two leaves of
    another forest can be undone, batches of four cannot. *)
Definition adds49' : list leaf := [(10, false); (11, false); (12, false); (13, false)].
Definition run49' (H : hash -> hash -> hash) : res (bool * bool * N * N * N * list (res hash) * res bool * res bool) :=
  let* f := F_Modify H (RamForest_new 0) adds49' [] in
  let* g := F_Modify H f.2 [] [0; 2; 3] in
  Ok (f.1, g.1, f_n f.2, f_n g.2, size (f_data g.2), [F_GetLeaf g.2 0], (let* r := F_Undo H g.2 (UndoBatch 0 [0; 2] [20; 21]) in Ok r.1), let* r := F_Undo H g.2 (UndoBatch 0 [0; 1; 2; 4] [20; 21; 22; 23]) in Ok r.1).
Lemma run49'_ok : run49' ex_H = Ok (true, true, 4, 1, 3, [Ok 11], Ok true, UB).
Proof. vm_compute. reflexivity. Qed.
Lemma ex_undo_rows : exists f us, reachable ex_H f us /\ holds_leaves f [11] /\ size (f_data f) = 3 /\ is_height 3 2 /\ is_height 5 3 /\
  valid_targets 3 [0; 2] /\ NoDup [11; 20; 21] /\ valid_targets 5 [0; 1; 2; 4] /\ NoDup [11; 20; 21; 22; 23].
Proof.
  pose proof run49'_ok as E. unfold run49' in E. apply bind_ok in E as ([b1 f] & E1 & E). apply bind_ok in E as ([b2 g] & E2 & E). cbn [fst snd] in E.
  assert (b1 = true /\ b2 = true /\ f_n f = 4 /\ f_n g = 1 /\ size (f_data g) = 3 /\ F_GetLeaf g 0 = Ok 11) as (-> & -> & Hf & En & Ed & El) by (split_and!; congruence). clear E.
  exists g, []. split.
  { eapply reach_modify; [eapply reach_modify; [apply reach_new| |exact E1]| |exact E2]; [done|by rewrite Hf]. }
  split; [split; [done|]; change (size [11]) with 1; intros i Hi; assert (i = 0) as -> by lia; exact El|].
  split; [done|]. split; [by apply NumRows_height|]. split; [by apply NumRows_height|].
  split; [split; repeat constructor|]. split; [apply (bool_decide_unpack _); by vm_compute|]. split; [split; repeat constructor|apply (bool_decide_unpack _); by vm_compute].
Qed.
