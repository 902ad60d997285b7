(** * HistFacts: histories of a RamForest (proofs) *)
From stdpp Require Import sorting.
From Verif Require Import Base StateModel CodecModel ForestModel PosSpec PosFacts PathFacts MerkleSpec CodecSpec CodecFacts TargetFacts ForestFacts
  RowFacts TransformFacts SpecFacts RemoveFacts ForestInv AddFacts UndoFacts CommitFacts ForestSpec.
From Coq Require Import ZifyBool ZifyNat ZifyN.
Ltac Zify.zify_post_hook ::= idtac.
Ltac dlia := zify; Z.div_mod_to_equations; lia.

Lemma lact_rev es y : lact es (lact (rev es) y) = y.
Proof.
  revert y. induction es as [|s es IH]; intros y; [done|]. cbn [rev]. rewrite lact_app. unfold lact at 1. cbn [fold_left]. fold (lact es).
  change (lact [s] (lact (rev es) y)) with (swt s.1.1 s.2.1 s.2.2 0 (lact (rev es) y)). rewrite swt_invol.
  apply IH.
Qed.
Lemma size_app' {A} (a b : list A) : size (a ++ b) = size a + size b.
Proof. unfold size. rewrite app_length. lia. Qed.
Lemma size_fst (adds : list leaf) : size adds.*1 = size adds.
Proof. unfold size. by rewrite fmap_length. Qed.
Lemma valid_nil n : valid_targets n [].
Proof. split; constructor. Qed.
Lemma valid_dec n ts : Decision (valid_targets n ts).
Proof. unfold valid_targets. apply and_dec; [|apply _]. apply StronglySorted_dec. apply _. Qed.

Section Hist.
Context (H : hash -> hash -> hash).

(** ** Remove *)
Lemma F_Remove_all f ls ts : inv H f ls -> size ls < 2 ^ 31 -> valid_targets (size ls) ts ->
  exists f', F_Remove H f ts = Ok (true, f') /\ inv H f' (spec_remove ls ts) /\
    size (f_data f') = size (f_data f) /\ (forall r, len f' r = len f r) /\
    size (spec_remove ls ts) + size ts = size ls /\
    forall x, G f' 0 (rowsact (size ls) (leaf_row ls ts) (N.to_nat (NumRows (size ls))) 0 x) = G f 0 x.
Proof.
  intros Hi Hn Hv. destruct (decide (ts = [])) as [->|Hne].
  - exists f. rewrite spec_remove_nil. split; [done|]. split; [done|]. split; [done|]. split; [done|]. split; [unfold size; cbn [length]; lia|].
    intros x. rewrite rowsact_full; [done|]. change (rowat (leaf_row ls []) 0) with (leaf_row ls []). by rewrite leaf_row_dead.
  - destruct (F_Remove_ok H f ls ts Hi ltac:(lia) Hv Hne) as (f' & E & Hi' & Hs & Hl & Hsz & Hx).
    exists f'. split; [done|]. split; [done|]. split; [done|]. split; [done|]. split; [|done].
    assert (size ts <= size ls); [|lia].
    pose proof (leaf_row_dead ls ts Hv) as Hd. pose proof (dead_size (leaf_row ls ts)) as Hds. rewrite Hd, leaf_row_size in Hds. lia.
Qed.

(** ** BuildUndoBatch *)
Definition entry_ok (u : undo_batch) (ls0 ls : list hash) : Prop :=
  exists ls1 as_ hs ts L0, u = UndoBatch (size as_) ts hs /\ ls = ls1 ++ as_ /\ size ls1 + size ts = size ls0 /\ size hs = size ts /\
    NoDup (ls1 ++ hs) /\ size L0 = size ls0 /\ dead 0 L0 = ts /\
    forall x, x < size ls0 -> leaf_at (ls1 ++ hs) (rowsact (size ls0) L0 (N.to_nat (NumRows (size ls0))) 0 x) = leaf_at ls0 x.

Lemma deleted_hashes_ok f prev a k : prev <= 2 ^ 62 -> a + k <= prev -> prev <= len f 0 ->
  F_deleted_hashes f prev (nseq a k) = Ok (Some (G f 0 <$> nseq a k)).
Proof.
  intros Hn. revert a. induction k as [|k IH] using N_ind1; intros a Ha Hl; [done|]. rewrite nseq_cons. cbn [F_deleted_hashes].
  assert (Hrow : 0 < size (f_data f)) by (eapply (len_row f 0 a); lia).
  destruct (N.eqb_spec (size (f_data f)) 0); [lia|]. rewrite vec_get_ok by done. cbn [bind].
  change (size (f_data f !!! N.to_nat 0)) with (len f 0). destruct (N.leb_spec (len f 0) a); [lia|].
  pose proof (F_ReadState_ok f prev 0 a Hn) as HR. change (N.of_nat 0) with 0 in HR. rewrite enc_0 in HR.
  rewrite HR; [|apply (leaf_slot prev a); lia|lia]. cbn [bind]. rewrite IH by lia. done.
Qed.

Lemma BuildUndoBatch_ok f f0 ls ts adds : inv H f0 ls -> size ls < 2 ^ 31 -> valid_targets (size ls) ts ->
  inv H f (spec_remove ls ts) -> (forall r, len f r = len f0 r) -> size (spec_remove ls ts) + size ts = size ls ->
  (forall x, G f 0 (rowsact (size ls) (leaf_row ls ts) (N.to_nat (NumRows (size ls))) 0 x) = G f0 0 x) ->
  exists u, F_BuildUndoBatch f (size (adds : list leaf)) ts = Ok (Some u) /\ entry_ok u ls (spec_remove ls ts ++ adds.*1).
Proof.
  intros Hi0 Hn Hv Hi Hlen Hsz Hrho. assert (H31 : 2 ^ 31 < 2 ^ 62) by done. assert (H64 : 2 ^ 62 < two64) by done.
  remember (spec_remove ls ts) as ls1 eqn:El1. remember (size ls) as n0 eqn:En0.
  pose proof (inv_wide _ _ _ Hi0) as Hw0. rewrite <- En0 in Hw0. pose proof (wide_len0 _ _ Hw0) as Hl0.
  pose proof (inv_wide _ _ _ Hi) as [Hfn _].
  unfold F_BuildUndoBatch. rewrite Hfn. rewrite add64_small by lia.
  replace (size ls1 + size ts) with n0 by lia.
  assert (Emap : (add64 (size ls1) <$> nseq 0 (size ts)) = nseq (size ls1) (size ts)).
  { unfold nseq. rewrite <- list_fmap_compose. apply list_fmap_ext. intros i x Hx%elem_of_list_lookup_2%elem_of_seq. unfold compose.
    rewrite add64_small by lia. lia. }
  assert (Hmax : int_max + 1 = 2 ^ 31) by done. rewrite int_loop_ok by lia. cbn [bind].
  rewrite Emap, deleted_hashes_ok; [|lia|lia|by rewrite Hlen]. cbn [bind]. eexists. split; [done|].
  remember (G f 0 <$> nseq (size ls1) (size ts)) as hs eqn:Ehs.
  assert (Hhs : size hs = size ts) by (rewrite Ehs; unfold size; rewrite fmap_length, nseq_length; lia).
  assert (HP : forall y, y < n0 -> leaf_at (ls1 ++ hs) y = G f 0 y).
  { intros y Hy. destruct (N.lt_ge_cases y (size ls1)) as [Hy1|Hy1].
    - rewrite (leaf_at_app1 H) by done. rewrite (inv_node _ _ _ Hi); [done|]. unfold node. change (2 ^ N.of_nat 0) with 1. lia.
    - replace y with (size ls1 + (y - size ls1)) at 1 by lia. rewrite (leaf_at_app2 H). unfold leaf_at. apply list_lookup_total_correct.
      rewrite Ehs, list_lookup_fmap, nseq_lookup by lia. cbn. do 2 f_equal. lia. }
  assert (HszP : size (ls1 ++ hs) = n0) by (rewrite size_app'; lia).
  assert (HL0 : size (leaf_row ls ts) = n0) by (rewrite leaf_row_size; done).
  destruct (undo_swaps_exist n0 (leaf_row ls ts) ltac:(lia) HL0) as (es & _ & Hgood & Hact).
  pose proof (posmap_inj _ _ (inv_pos _ _ _ Hi0)) as Hinj. rewrite <- En0 in Hinj.
  exists ls1, adds.*1, hs, ts, (leaf_row ls ts). rewrite <- En0. split; [by rewrite size_fst|]. split; [done|]. split; [done|]. split; [done|].
  assert (Hpre : forall y, y < n0 -> exists x, x < n0 /\ rowsact n0 (leaf_row ls ts) (N.to_nat (NumRows n0)) 0 x = y).
  { intros y Hy. exists (lact (rev es) y). split.
    - refine (lact_lt H n0 (rev es) y _ Hy). intros s Hs. apply Hgood. by rewrite elem_of_list_In, <- in_rev, <- elem_of_list_In in Hs.
    - rewrite <- Hact. apply lact_rev. }
  split; [|split; [done|split]].
  - apply NoDup_alt. intros i j h Hih Hjh.
    assert (Hi' := Hih). assert (Hj' := Hjh). apply lookup_lt_Some in Hi', Hj'. unfold size in HszP.
    assert (Ei : leaf_at (ls1 ++ hs) (N.of_nat i) = h) by (unfold leaf_at; rewrite Nat2N.id; by apply list_lookup_total_correct).
    assert (Ej : leaf_at (ls1 ++ hs) (N.of_nat j) = h) by (unfold leaf_at; rewrite Nat2N.id; by apply list_lookup_total_correct).
    rewrite HP in Ei, Ej by lia.
    destruct (Hpre (N.of_nat i)) as (x & Hx & Ex); [lia|]. destruct (Hpre (N.of_nat j)) as (y & Hy & Ey); [lia|].
    rewrite <- Ex, Hrho in Ei. rewrite <- Ey, Hrho in Ej. assert (x = y) by (apply Hinj; [done|done|congruence]). subst y. lia.
  - apply leaf_row_dead. by rewrite <- En0.
  - intros x Hx. rewrite HP.
    + rewrite Hrho. rewrite (inv_node _ _ _ Hi0); [done|]. rewrite <- En0. unfold node. change (2 ^ N.of_nat 0) with 1. lia.
    + rewrite <- Hact. exact (lact_lt H n0 es x Hgood Hx).
Qed.

(** ** Modify *)
Lemma F_Modify_ok f ls (adds : list leaf) ts : inv H f ls -> size ls < 2 ^ 31 -> size ls + size adds < 2 ^ 31 + size ts -> valid_targets (size ls) ts ->
  let ls' := spec_remove ls ts ++ adds.*1 in
  (NoDup ls' /\ exists f' u, F_Modify H f adds ts = Ok (true, f') /\ F_ModifyUndo H f adds ts = Ok (true, Some u, f') /\
     inv H f' ls' /\ size ls' < 2 ^ 31 /\ size (f_data f) <= size (f_data f') /\ entry_ok u ls ls' /\
     size ls' + size ts = size ls + size adds) \/
  (~ NoDup ls' /\ F_Modify H f adds ts = Abort /\ F_ModifyUndo H f adds ts = Abort).
Proof.
  intros Hi Hn Hb Hv ls'. destruct (F_Remove_all f ls ts Hi Hn Hv) as (f1 & E1 & Hi1 & Hs1 & Hl1 & Hsz1 & Hrho).
  destruct (BuildUndoBatch_ok f1 f ls ts adds Hi Hn Hv Hi1 Hl1 Hsz1 Hrho) as (u & Eu & Hu).
  unfold F_Modify, F_ModifyUndo. rewrite E1. cbn [bind fst snd negb]. rewrite Eu. cbn [bind].
  destruct (F_Add_ok H f1 (spec_remove ls ts) adds Hi1) as [(Hnd & f2 & E2 & Hi2 & Hs2)|(Hnd & E2)].
  { unfold leaf in *. lia. }
  - left. split; [done|]. exists f2, u. rewrite E2. cbn [bind]. split; [done|]. split; [done|]. split; [done|].
    assert (Hsz : size ls' = size (spec_remove ls ts) + size adds) by (unfold ls'; rewrite size_app', size_fst; done).
    unfold leaf in *. split; [lia|]. split; [lia|]. split; [done|]. lia.
  - right. split; [done|]. rewrite E2. done.
Qed.
Lemma F_Modify_invalid f (ls : list hash) (adds : list leaf) ts : f_n f = size ls -> ~ valid_targets (size ls) ts ->
  F_Modify H f adds ts = Ok (false, f) /\ F_ModifyUndo H f adds ts = Ok (false, None, f).
Proof.
  intros Hi Hv. unfold F_Modify, F_ModifyUndo. rewrite (F_Remove_invalid H f (size ls) ts); done.
Qed.

(** ** Reachable forests *)
Fixpoint chain (k : N) (ls : list hash) (us : list undo_batch) : Prop :=
  match us with
  | [] => True
  | u :: us' => exists ls0, entry_ok u ls0 ls /\ NumRows (size ls0) < k /\ size ls0 < 2 ^ 31 /\ chain k ls0 us'
  end.
Lemma chain_mono k k' ls us : k <= k' -> chain k ls us -> chain k' ls us.
Proof.
  intros Hk. revert ls. induction us as [|u us IH]; intros ls; [done|]. intros (ls0 & H1 & H2 & H3 & H4).
  exists ls0. split; [done|]. split; [lia|]. split; [done|]. by apply IH.
Qed.

Lemma inv_new : inv H (RamForest_new 0) [].
Proof.
  split.
  - split; [done|]. intros r. change (size (@nil N)) with 0. rewrite N.div_0_l by (pose proof (pow_pos (N.of_nat r)); lia). split; [lia|].
    unfold len. cbn [f_data RamForest_new]. destruct r as [|[|r]]; done.
  - intros r i Hi. unfold node in Hi. change (size (@nil N)) with 0 in Hi. pose proof (pow_pos (N.of_nat r)). nia.
  - intros h p. cbn [f_posmap RamForest_new]. rewrite lookup_empty. change (size (@nil N)) with 0. split; [done|]. lia.
  - done.
  - done.
Qed.

Lemma Undo_entry f ls u ls0 : inv H f ls -> size ls < 2 ^ 31 -> entry_ok u ls0 ls -> NumRows (size ls0) < size (f_data f) -> size ls0 < 2 ^ 31 ->
  exists f', F_Undo H f u = Ok (true, f') /\ inv H f' ls0 /\ size (f_data f') = size (f_data f).
Proof.
  intros Hi Hn (ls1 & as_ & hs & ts & L0 & -> & -> & H1 & H2 & H3 & H4 & H5 & H6) Hr Hn0.
  assert (2 ^ 31 <= 2 ^ 61) by done. assert (int_max + 1 = 2 ^ 31) by done.
  apply (F_Undo_ok H f ls0 ls1 as_ hs ts L0 (size ls0)); try done; lia.
Qed.

Lemma F_GetLeaf_ok f ls : inv H f ls -> size ls <= 2 ^ 62 -> holds_leaves f ls.
Proof.
  intros Hi Hn. pose proof (inv_wide _ _ _ Hi) as Hw. pose proof (wide_len0 _ _ Hw) as Hl. pose proof Hw as [Hfn _]. split; [done|].
  intros i Hlt. unfold F_GetLeaf. rewrite Hfn. destruct (N.ltb_spec i (size ls)); [|lia]. cbn [assert_ bind].
  pose proof (F_Read_ok f 0 i) as HR. change (N.of_nat 0) with 0 in HR. rewrite enc_0 in HR. rewrite Hfn in HR.
  rewrite HR; [|done|by apply (leaf_slot (size ls) i)|lia]. f_equal. rewrite (inv_node _ _ _ Hi); [done|].
  unfold node. change (2 ^ N.of_nat 0) with 1. lia.
Qed.
Lemma holds_unique f ls ls' : holds_leaves f ls -> holds_leaves f ls' -> ls = ls'.
Proof.
  intros [Hn Hl] [Hn' Hl']. assert (Hs : size ls = size ls') by congruence. apply total_ext; [unfold size in Hs; lia|].
  intros i Hi. specialize (Hl (N.of_nat i)). specialize (Hl' (N.of_nat i)). unfold size in *. rewrite Hl in Hl' by lia.
  unfold leaf_at in Hl'. rewrite Nat2N.id in Hl'. specialize (Hl' ltac:(lia)). congruence.
Qed.
Lemma inv_read f ls r i : inv H f ls -> size ls <= 2 ^ 62 -> node (size ls) r i ->
  F_Read f (enc (NumRows (size ls)) r i) = Ok (nh H (leaf_at ls) (N.to_nat r) i).
Proof.
  intros Hi Hn Hnode. pose proof (inv_wide _ _ _ Hi) as Hw. pose proof Hw as [Hfn _].
  pose proof (F_Read_ok f (N.to_nat r) i) as HR. rewrite N2Nat.id, Hfn in HR. rewrite HR.
  - f_equal. apply (inv_node _ _ _ Hi). by rewrite N2Nat.id.
  - done.
  - by apply node_slot.
  - eapply wide_node; [done|]. by rewrite N2Nat.id.
Qed.
Lemma inv_same f g ls : inv H f ls -> inv H g ls -> size ls <= 2 ^ 62 -> same_forest f g.
Proof.
  intros Hf Hg Hn. pose proof (inv_wide _ _ _ Hf) as [Hfn _]. pose proof (inv_wide _ _ _ Hg) as [Hgn _].
  split; [congruence|]. split; [rewrite (inv_roots _ _ _ Hf), (inv_roots _ _ _ Hg); done|]. split.
  - apply map_eq. intros h. apply option_eq. intros p.
    assert (HG : forall x, x < size ls -> G f 0 x = G g 0 x).
    { intros x Hx. rewrite (inv_node _ _ _ Hf), (inv_node _ _ _ Hg); [done| |]; unfold node; change (2 ^ N.of_nat 0) with 1; lia. }
    rewrite (inv_pos _ _ _ Hf h p), (inv_pos _ _ _ Hg h p). split; intros [Hlt E]; (split; [done|]); specialize (HG p Hlt); congruence.
  - intros R r i HR Hnode. rewrite Hfn in *. apply NumRows_height in HR as <-.
    exists (nh H (leaf_at ls) (N.to_nat r) i). split; by apply inv_read.
Qed.

Lemma reachable_inv f us : reachable H f us -> exists ls, inv H f ls /\ size ls < 2 ^ 31 /\ chain (size (f_data f)) ls us.
Proof.
  assert (H31 : 2 ^ 31 <= 2 ^ 62) by done.
  induction 1 as [|f us adds ts f' Hr IH Hb E|f us adds ts u f' Hr IH Hb E|f u us f' Hr IH E|f us old bytes f' Hr IH HH Hl E1 E2].
  - exists []. split; [apply inv_new|]. done.
  - destruct IH as (ls & Hi & Hn & Hc). pose proof (inv_wide _ _ _ Hi) as [Hfn _]. rewrite Hfn in Hb.
    destruct (valid_dec (size ls) ts) as [Hv|Hv].
    + destruct (F_Modify_ok f ls adds ts Hi Hn Hb Hv) as [(_ & f2 & u & E' & _ & Hi' & Hn' & _)|(_ & E' & _)]; [|congruence].
      assert (f2 = f') as -> by congruence. exists (spec_remove ls ts ++ adds.*1). done.
    + destruct (F_Modify_invalid f ls adds ts Hfn Hv) as [E' _]. congruence.
  - destruct IH as (ls & Hi & Hn & Hc). pose proof (inv_wide _ _ _ Hi) as [Hfn _]. rewrite Hfn in Hb.
    destruct (valid_dec (size ls) ts) as [Hv|Hv].
    + destruct (F_Modify_ok f ls adds ts Hi Hn Hb Hv) as [(_ & f2 & u' & _ & E' & Hi' & Hn' & Hs & He & _)|(_ & _ & E')]; [|congruence].
      assert (f2 = f' /\ u' = u) as [-> ->] by (split; congruence). exists (spec_remove ls ts ++ adds.*1). split; [done|]. split; [done|].
      exists ls. split; [done|]. pose proof (inv_rows _ _ _ Hi). split; [lia|]. split; [done|]. by eapply chain_mono.
    + destruct (F_Modify_invalid f ls adds ts Hfn Hv) as [_ E']. congruence.
  - destruct IH as (ls & Hi & Hn & (ls0 & He & Hk & Hn0 & Hc)).
    destruct (Undo_entry f ls u ls0 Hi Hn He Hk Hn0) as (f2 & E' & Hi' & Hs). assert (f2 = f') as -> by congruence.
    exists ls0. split; [done|]. split; [done|]. by rewrite Hs.
  - destruct IH as (ls & Hi & Hn & Hc). pose proof (inv_wide _ _ _ Hi) as [Hfn _].
    destruct (F_Restore_ok H f ls old bytes) as (f2 & E' & Hi'); try done.
    + assert (int_max + 1 = 2 ^ 31) by done. lia.
    + apply Forall_lookup. intros i h Hih. apply (Hl (N.of_nat i) h).
      * apply lookup_lt_Some in Hih. unfold size in Hfn. lia.
      * destruct (F_GetLeaf_ok f ls Hi ltac:(lia)) as [_ Hg]. rewrite Hg.
        -- f_equal. unfold leaf_at. rewrite Nat2N.id. by apply list_lookup_total_correct.
        -- apply lookup_lt_Some in Hih. unfold size. lia.
    + assert (f2 = f') as -> by congruence. exists ls. done.
Qed.

Lemma reachable_holds f us ls : reachable H f us -> holds_leaves f ls -> inv H f ls /\ size ls < 2 ^ 31 /\ chain (size (f_data f)) ls us.
Proof.
  intros Hr Hh. destruct (reachable_inv f us Hr) as (ls' & Hi & Hn & Hc).
  assert (ls = ls') as ->; [|done]. eapply holds_unique; [done|]. apply F_GetLeaf_ok; [done|]. assert (2 ^ 31 <= 2 ^ 62) by done. lia.
Qed.

(** ** The properties *)
Lemma C01_lem f us : reachable H f us -> exists ls, holds_leaves f ls /\ roots_of H ls (F_Roots f).
Proof.
  intros Hr. destruct (reachable_inv f us Hr) as (ls & Hi & Hn & _). exists ls. split.
  - apply F_GetLeaf_ok; [done|]. assert (2 ^ 31 <= 2 ^ 62) by done. lia.
  - rewrite (inv_roots _ _ _ Hi). apply spec_roots_of.
Qed.

Lemma modify_cases f us ls (adds : list leaf) ts f' : reachable H f us -> holds_leaves f ls -> size ls + size adds < 2 ^ 31 + size ts ->
  (F_Modify H f adds ts = Ok (true, f') \/ exists u, F_ModifyUndo H f adds ts = Ok (true, u, f')) ->
  valid_targets (size ls) ts /\ inv H f' (spec_remove ls ts ++ adds.*1) /\ NoDup (spec_remove ls ts ++ adds.*1) /\
  size (spec_remove ls ts ++ adds.*1) + size ts = size ls + size adds /\ size (spec_remove ls ts ++ adds.*1) < 2 ^ 31.
Proof.
  intros Hr Hh Hb E. destruct (reachable_holds f us ls Hr Hh) as (Hi & Hn & _). pose proof Hh as [Hfn _].
  destruct (valid_dec (size ls) ts) as [Hv|Hv].
  - split; [done|]. destruct (F_Modify_ok f ls adds ts Hi Hn Hb Hv) as [(Hnd & f2 & u' & E1 & E2 & Hi' & Hn' & Hs & He & Hsz)|(_ & E1 & E2)].
    + assert (f2 = f') as -> by (destruct E as [E|[u E]]; congruence). done.
    + destruct E as [E|[u E]]; congruence.
  - destruct (F_Modify_invalid f ls adds ts Hfn Hv) as [E1 E2]. destruct E as [E|[u E]]; congruence.
Qed.

Lemma C02_lem f us ls (adds : list leaf) ts f' : reachable H f us -> holds_leaves f ls -> size ls + size adds < 2 ^ 31 + size ts ->
  (F_Modify H f adds ts = Ok (true, f') \/ exists u, F_ModifyUndo H f adds ts = Ok (true, u, f')) ->
  valid_targets (size ls) ts /\
  exists ls', holds_leaves f' ls' /\ ls' ≡ₚ survivors ls ts ++ adds.*1 /\ size ls' + size ts = size ls + size adds.
Proof.
  intros Hr Hh Hb E. destruct (modify_cases f us ls adds ts f' Hr Hh Hb E) as (Hv & Hi & Hnd & Hsz & Hn). split; [done|].
  exists (spec_remove ls ts ++ adds.*1). split; [|split; [|done]].
  - apply F_GetLeaf_ok; [done|]. assert (2 ^ 31 <= 2 ^ 62) by done. lia.
  - by rewrite spec_remove_perm.
Qed.
Lemma C03_lem f us ls (adds : list leaf) ts f' : reachable H f us -> holds_leaves f ls -> size ls + size adds < 2 ^ 31 + size ts ->
  (F_Modify H f adds ts = Ok (true, f') \/ exists u, F_ModifyUndo H f adds ts = Ok (true, u, f')) ->
  holds_leaves f' (spec_remove ls ts ++ adds.*1).
Proof.
  intros Hr Hh Hb E. destruct (modify_cases f us ls adds ts f' Hr Hh Hb E) as (Hv & Hi & Hnd & Hsz & Hn).
  apply F_GetLeaf_ok; [done|]. assert (2 ^ 31 <= 2 ^ 62) by done. lia.
Qed.

Lemma C04_reject_lem f adds ts : ~ valid_targets (f_n f) ts ->
  F_Modify H f adds ts = Ok (false, f) /\ F_ModifyUndo H f adds ts = Ok (false, None, f).
Proof.
  intros Hv. unfold F_Modify, F_ModifyUndo. rewrite (F_Remove_invalid H f (f_n f) ts); done.
Qed.
Lemma C04_accept_lem f us (adds : list leaf) ts : reachable H f us -> f_n f + size adds < 2 ^ 31 + size ts -> valid_targets (f_n f) ts ->
  (forall f', F_Modify H f adds ts <> Ok (false, f')) /\ (forall u f', F_ModifyUndo H f adds ts <> Ok (false, u, f')).
Proof.
  intros Hr Hb Hv. destruct (reachable_inv f us Hr) as (ls & Hi & Hn & _). pose proof (inv_wide _ _ _ Hi) as [Hfn _]. rewrite Hfn in *.
  destruct (F_Modify_ok f ls adds ts Hi Hn Hb Hv) as [(_ & f2 & u' & E1 & E2 & _)|(_ & E1 & E2)]; split; congruence.
Qed.

Lemma NoDup_survivors ls ts : NoDup ls -> NoDup (survivors ls ts).
Proof.
  intros Hnd. unfold survivors. assert (Hg : forall (l : list N) (g : nat -> nat), NoDup l ->
    NoDup (omap (λ p : nat * N, if decide (N.of_nat p.1 ∈ ts) then None else Some p.2) (imap (fun i h => (g i, h)) l)) /\
    forall x, x ∈ omap (λ p : nat * N, if decide (N.of_nat p.1 ∈ ts) then None else Some p.2) (imap (fun i h => (g i, h)) l) -> x ∈ l).
  { clear. induction l as [|x l IH]; intros g Hnd; [split; [constructor|by intros ? ?%elem_of_nil]|].
    apply NoDup_cons in Hnd as [Hx Hnd]. cbn [imap]. specialize (IH (g ∘ S) Hnd).
    change (imap ((λ i h, (g i, h)) ∘ S) l) with (imap (λ i h, ((g ∘ S) i, h)) l). cbn [omap list_omap fst snd].
    destruct (decide (N.of_nat (g 0%nat) ∈ ts)).
    - destruct IH as [IH1 IH2]. split; [done|]. intros y Hy. right. by apply IH2.
    - destruct IH as [IH1 IH2]. split.
      + apply NoDup_cons. split; [|done]. intros Hin. by apply Hx, IH2.
      + intros y [->|Hy]%elem_of_cons; [left|right; by apply IH2]. }
  by destruct (Hg ls (fun i => i) Hnd).
Qed.
Lemma survivors_elem ls ts h : h ∈ survivors ls ts -> h ∈ ls.
Proof.
  unfold survivors. intros ([i x] & Hin & Hd)%elem_of_list_omap. cbn [fst snd] in Hd. destruct (decide _); [done|]. injection Hd as ->.
  apply elem_of_lookup_imap_1 in Hin as (j & y & E & Hy). injection E as -> ->. by eapply elem_of_list_lookup_2.
Qed.
Lemma inv_NoDup f ls : inv H f ls -> NoDup ls.
Proof.
  intros Hi. pose proof (inv_pos _ _ _ Hi) as Hp. apply posmap_pm in Hp; [by eapply pm_NoDup|]. intros i Hlt.
  rewrite (inv_node _ _ _ Hi); [done|]. unfold node. change (2 ^ N.of_nat 0) with 1. lia.
Qed.

Lemma C05_lem f us (adds : list leaf) ts : reachable H f us -> f_n f + size adds < 2 ^ 31 + size ts ->
  NoDup adds.*1 -> (forall h i, h ∈ adds.*1 -> i < f_n f -> F_GetLeaf f i <> Ok h) ->
  exists b u f', F_Modify H f adds ts = Ok (b, f') /\ F_ModifyUndo H f adds ts = Ok (b, u, f') /\
    (b = true <-> valid_targets (f_n f) ts).
Proof.
  intros Hr Hb Hnd Hfresh. destruct (reachable_inv f us Hr) as (ls & Hi & Hn & _). pose proof (inv_wide _ _ _ Hi) as [Hfn _].
  assert (Hg : holds_leaves f ls) by (apply F_GetLeaf_ok; [done|]; assert (2 ^ 31 <= 2 ^ 62) by done; lia).
  rewrite Hfn in *. destruct (valid_dec (size ls) ts) as [Hv|Hv].
  - destruct (F_Modify_ok f ls adds ts Hi Hn Hb Hv) as [(_ & f2 & u' & E1 & E2 & _)|(Hx & E1 & E2)].
    + exists true, (Some u'), f2. done.
    + destruct Hx. rewrite spec_remove_perm. apply NoDup_app. split; [by apply NoDup_survivors, (inv_NoDup f)|]. split; [|done].
      intros h Hs%survivors_elem Hin. apply elem_of_list_lookup in Hs as [i Hih]. apply (Hfresh h (N.of_nat i) Hin).
      * apply lookup_lt_Some in Hih. unfold size. lia.
      * destruct Hg as [_ Hg]. rewrite Hg by (apply lookup_lt_Some in Hih; unfold size; lia). f_equal. unfold leaf_at. rewrite Nat2N.id.
        by apply list_lookup_total_correct.
  - destruct (F_Modify_invalid f ls adds ts Hfn Hv) as [E1 E2]. exists false, None, f. done.
Qed.

Lemma C07_lem f us h p : reachable H f us -> f_posmap f !! h = Some p <-> p < f_n f /\ F_GetLeaf f p = Ok h.
Proof.
  intros Hr. destruct (reachable_inv f us Hr) as (ls & Hi & Hn & _). pose proof (inv_wide _ _ _ Hi) as [Hfn _].
  assert (Hg : holds_leaves f ls) by (apply F_GetLeaf_ok; [done|]; assert (2 ^ 31 <= 2 ^ 62) by done; lia).
  destruct Hg as [_ Hg]. rewrite (inv_pos _ _ _ Hi h p), Hfn. split; intros [Hlt E]; (split; [done|]).
  - rewrite Hg by done. rewrite <- E. f_equal. rewrite (inv_node _ _ _ Hi); [done|]. unfold node. change (2 ^ N.of_nat 0) with 1. lia.
  - rewrite Hg in E by done. assert (leaf_at ls p = h) as <- by congruence.
    rewrite (inv_node _ _ _ Hi); [done|]. unfold node. change (2 ^ N.of_nat 0) with 1. lia.
Qed.

Lemma C08_lem f us adds ts u f' : reachable H f us -> f_n f + size adds < 2 ^ 31 + size ts ->
  F_ModifyUndo H f adds ts = Ok (true, Some u, f') ->
  exists f'', F_Undo H f' u = Ok (true, f'') /\ same_forest f f''.
Proof.
  intros Hr Hb E. assert (Hr' := reach_modify_undo H f us adds ts u f' Hr Hb E).
  destruct (reachable_inv f us Hr) as (ls & Hi & Hn & _). pose proof (inv_wide _ _ _ Hi) as [Hfn _]. rewrite Hfn in Hb.
  assert (H31 : 2 ^ 31 <= 2 ^ 62) by done.
  assert (Hg : holds_leaves f ls) by (apply F_GetLeaf_ok; [done|]; lia).
  destruct (valid_dec (size ls) ts) as [Hv|Hv].
  - destruct (F_Modify_ok f ls adds ts Hi Hn Hb Hv) as [(_ & f2 & u' & _ & E' & Hi' & Hn' & Hs & He & _)|(_ & _ & E')]; [|congruence].
    assert (f2 = f' /\ u' = u) as [-> ->] by (split; congruence). pose proof (inv_rows _ _ _ Hi).
    destruct (Undo_entry f' _ u ls Hi' Hn' He ltac:(lia) Hn) as (f3 & E3 & Hi3 & _). exists f3. split; [done|].
    apply (inv_same f f3 ls); [done|done|]. lia.
  - destruct (F_Modify_invalid f ls adds ts Hfn Hv) as [_ E']. congruence.
Qed.

Lemma undo_all_app f us vs g : undo_all H f us = Ok (Some g) -> undo_all H f (us ++ vs) = undo_all H g vs.
Proof.
  revert f. induction us as [|u us IH]; intros f; cbn [undo_all app]; [by intros [= ->]|].
  destruct (F_Undo H f u) as [[[] ?]| | | |]; cbn [bind fst snd]; try done. apply IH.
Qed.
Lemma undo_chain_ok f us f' : modifies H f us f' -> forall ls, inv H f ls -> size ls < 2 ^ 31 ->
  exists ls' f'', inv H f' ls' /\ size ls' < 2 ^ 31 /\ size (f_data f) <= size (f_data f') /\
    undo_all H f' us = Ok (Some f'') /\ inv H f'' ls /\ size (f_data f'') = size (f_data f').
Proof.
  induction 1 as [f|f adds ts u f1 us f2 Hb E Hm IH]; intros ls Hi Hn.
  - exists ls, f. split; [done|]. split; [done|]. split; [lia|]. done.
  - pose proof (inv_wide _ _ _ Hi) as [Hfn _]. rewrite Hfn in Hb.
    destruct (valid_dec (size ls) ts) as [Hv|Hv].
    + destruct (F_Modify_ok f ls adds ts Hi Hn Hb Hv) as [(_ & f3 & u' & _ & E' & Hi' & Hn' & Hs & He & _)|(_ & _ & E')]; [|congruence].
      assert (f3 = f1 /\ u' = u) as [-> ->] by (split; congruence).
      destruct (IH _ Hi' Hn') as (ls2 & f4 & Hi2 & Hn2 & Hs2 & Eu & Hi4 & Hs4).
      pose proof (inv_rows _ _ _ Hi).
      destruct (Undo_entry f4 _ u ls Hi4 Hn' He ltac:(lia) Hn) as (f5 & E5 & Hi5 & Hs5).
      exists ls2, f5. split; [done|]. split; [done|]. split; [lia|]. rewrite (undo_all_app _ _ _ _ Eu). cbn [undo_all]. rewrite E5. cbn [bind fst snd].
      split; [done|]. split; [done|]. lia.
    + destruct (F_Modify_invalid f ls adds ts Hfn Hv) as [_ E']. congruence.
Qed.
Lemma C09_lem f us0 us f' : reachable H f us0 -> modifies H f us f' ->
  exists f'', undo_all H f' us = Ok (Some f'') /\ same_forest f f''.
Proof.
  intros Hr Hm. destruct (reachable_inv f us0 Hr) as (ls & Hi & Hn & _).
  destruct (undo_chain_ok f us f' Hm ls Hi Hn) as (ls' & f2 & _ & _ & _ & E & Hi2 & _). exists f2. split; [done|].
  apply (inv_same f f2 ls); [done|done|]. assert (2 ^ 31 <= 2 ^ 62) by done. lia.
Qed.

Lemma C10_lem f us old : reachable H f us -> (forall a b, H a b < 256 ^ 32) ->
  (forall i h, i < f_n f -> F_GetLeaf f i = Ok h -> h < 256 ^ 32) ->
  exists bytes f', F_Commit f old = Ok bytes /\ F_Restore bytes = Ok f' /\ same_forest f f'.
Proof.
  intros Hr HH Hl. destruct (reachable_inv f us Hr) as (ls & Hi & Hn & _). pose proof (inv_wide _ _ _ Hi) as [Hfn _]. rewrite Hfn in *.
  assert (H31 : int_max + 1 = 2 ^ 31) by done. assert (H62 : 2 ^ 31 <= 2 ^ 62) by done.
  pose proof (F_Commit_ok H f ls old Hi ltac:(lia)) as Ec.
  remember (overwrite old _) as bytes eqn:Eb. clear Eb. exists bytes.
  assert (HF : Forall (fun h => h < 256 ^ 32) ls).
  { apply Forall_lookup. intros i h Hih. apply (Hl (N.of_nat i) h).
    + apply lookup_lt_Some in Hih. unfold size. lia.
    + destruct (F_GetLeaf_ok f ls Hi ltac:(lia)) as [_ Hg]. rewrite Hg.
      * f_equal. unfold leaf_at. rewrite Nat2N.id. by apply list_lookup_total_correct.
      * apply lookup_lt_Some in Hih. unfold size. lia. }
  destruct (F_Restore_ok H f ls old bytes Hi ltac:(lia) HH HF Ec) as (f2 & E' & Hi').
  exists f2. split; [exact Ec|]. split; [done|]. apply (inv_same f f2 ls); [done|done|]. lia.
Qed.

(** The bound is that of the code: beyond it the [int] counters overflow. *)
Lemma C10_bound_lem f old bytes : int_max < f_n f -> F_Commit f old <> Ok bytes.
Proof.
  intros Hn E. unfold F_Commit, F_commit_blocks in E. apply bind_ok in E as (bs & E & _). apply bind_ok in E as (hs & E & _).
  destruct (N.to_nat (NumRows (f_n f))); cbn [commit_rows] in E; apply bind_ok in E as (rd & _ & E); apply bind_ok in E as ([] & _ & E); apply bind_ok in E as ([] & E & _);
    unfold int_loop in E; (destruct (N.ltb_spec int_max (f_n f)); [done|lia]).
Qed.

Lemma C36_lem f us (l1 l2 : list leaf) ts : reachable H f us -> f_n f + size l1 + size l2 < 2 ^ 31 + size ts ->
  (forall g, F_Modify H f (l1 ++ l2) ts = Ok (true, g) ->
     exists g1 g2, F_Modify H f l1 ts = Ok (true, g1) /\ F_Modify H g1 l2 [] = Ok (true, g2) /\ same_forest g g2) /\
  (forall g1 g2, F_Modify H f l1 ts = Ok (true, g1) -> F_Modify H g1 l2 [] = Ok (true, g2) ->
     exists g, F_Modify H f (l1 ++ l2) ts = Ok (true, g) /\ same_forest g g2).
Proof.
  intros Hr Hb. destruct (reachable_inv f us Hr) as (ls & Hi & Hn & _). pose proof (inv_wide _ _ _ Hi) as [Hfn _]. rewrite Hfn in Hb.
  assert (H62 : 2 ^ 31 <= 2 ^ 62) by done.
  destruct (valid_dec (size ls) ts) as [Hv|Hv].
  2: { destruct (F_Modify_invalid f ls (l1 ++ l2) ts Hfn Hv) as [E1 _]. destruct (F_Modify_invalid f ls l1 ts Hfn Hv) as [E2 _]. split; congruence. }
  pose proof (F_Modify_ok f ls (l1 ++ l2) ts Hi Hn ltac:(rewrite size_app'; lia) Hv) as HA.
  pose proof (F_Modify_ok f ls l1 ts Hi Hn ltac:(lia) Hv) as HB. cbn zeta in HA, HB. rewrite fmap_app, app_assoc in HA.
  assert (HC : forall g1, inv H g1 (spec_remove ls ts ++ l1.*1) -> size (spec_remove ls ts ++ l1.*1) < 2 ^ 31 ->
    size (spec_remove ls ts ++ l1.*1) + size ts = size ls + size l1 ->
    (NoDup ((spec_remove ls ts ++ l1.*1) ++ l2.*1) /\ exists g2, F_Modify H g1 l2 [] = Ok (true, g2) /\ inv H g2 ((spec_remove ls ts ++ l1.*1) ++ l2.*1)) \/
    (~ NoDup ((spec_remove ls ts ++ l1.*1) ++ l2.*1) /\ F_Modify H g1 l2 [] = Abort)).
  { intros g1 Hi1 Hn1 Hs1. pose proof (F_Modify_ok g1 _ l2 [] Hi1 Hn1 ltac:(change (size (@nil N)) with 0; lia) (valid_nil _)) as Hx. cbn zeta in Hx.
    rewrite spec_remove_nil in Hx. destruct Hx as [(Hnd & g2 & u & E & _ & Hi2 & _)|(Hnd & E & _)]; [left|right]; [|done].
    split; [done|]. by exists g2. }
  split.
  - intros g E. destruct HA as [(Hnd & g' & u & E' & _ & Hig & Hng & _)|(_ & E' & _)]; [|congruence].
    assert (g' = g) as -> by congruence.
    destruct HB as [(Hnd1 & g1 & u1 & E1 & _ & Hi1 & Hn1 & _ & _ & Hs1)|(Hnd1 & _)].
    + destruct (HC g1 Hi1 Hn1 Hs1) as [(_ & g2 & E2 & Hi2)|(Hx & _)]; [|done].
      exists g1, g2. split; [done|]. split; [done|]. apply (inv_same _ _ _ Hig Hi2). lia.
    + by apply NoDup_app in Hnd as (? & _ & _).
  - intros g1 g2 E1 E2. destruct HB as [(Hnd1 & g1' & u1 & E1' & _ & Hi1 & Hn1 & _ & _ & Hs1)|(_ & E1' & _)]; [|congruence].
    assert (g1' = g1) as -> by congruence.
    destruct (HC g1 Hi1 Hn1 Hs1) as [(Hnd & g2' & E2' & Hi2)|(_ & E2')]; [|congruence]. assert (g2' = g2) as -> by congruence.
    destruct HA as [(_ & g & u & E' & _ & Hig & Hng & _)|(Hx & _)]; [|done].
    exists g. split; [done|]. apply (inv_same _ _ _ Hig Hi2). lia.
Qed.

Lemma C37_lem f us g vs : reachable H f us -> reachable H g vs ->
  F_eqb f g = true <-> exists ls, holds_leaves f ls /\ holds_leaves g ls.
Proof.
  intros Hf Hg. destruct (reachable_inv f us Hf) as (ls & Hi & Hn & _). destruct (reachable_inv g vs Hg) as (ls' & Hi' & Hn' & _).
  assert (H62 : 2 ^ 31 <= 2 ^ 62) by done.
  pose proof (F_GetLeaf_ok f ls Hi ltac:(lia)) as Hl. pose proof (F_GetLeaf_ok g ls' Hi' ltac:(lia)) as Hl'.
  unfold F_eqb. rewrite !andb_true_iff, N.eqb_eq, vec_eqb_eq, bool_decide_eq_true. split.
  - intros [[E1 _] E3]. exists ls. split; [done|]. assert (ls = ls') as ->; [|done].
    destruct Hl as [Hl0 _], Hl' as [Hl0' _]. assert (Hs : size ls = size ls') by congruence.
    apply total_ext; [unfold size in Hs; lia|]. intros i Hx.
    assert (HGf : G f 0 (N.of_nat i) = leaf_at ls (N.of_nat i)).
    { rewrite (inv_node _ _ _ Hi); [done|]. unfold node, size. change (2 ^ N.of_nat 0) with 1. lia. }
    assert (HGg : G g 0 (N.of_nat i) = leaf_at ls' (N.of_nat i)).
    { rewrite (inv_node _ _ _ Hi'); [done|]. unfold node, size in *. change (2 ^ N.of_nat 0) with 1. lia. }
    pose proof (proj2 (inv_pos _ _ _ Hi (G f 0 (N.of_nat i)) (N.of_nat i))) as Hp.
    assert (Hlt : N.of_nat i < size ls) by (unfold size; lia). specialize (Hp (conj Hlt eq_refl)).
    rewrite E3 in Hp. apply (inv_pos _ _ _ Hi') in Hp as [_ Hp]. rewrite HGf, HGg in Hp. unfold leaf_at in Hp. by rewrite !Nat2N.id in Hp.
  - intros (l & H1 & H2). assert (l = ls) as -> by exact (holds_unique f l ls H1 Hl). assert (ls = ls') as <- by exact (holds_unique g ls ls' H2 Hl').
    destruct (inv_same f g ls Hi Hi' ltac:(lia)) as (E1 & E2 & E3 & _). done.
Qed.

Lemma C38_lem f us ls (adds : list leaf) ts : reachable H f us -> holds_leaves f ls -> size ls + size adds < 2 ^ 31 + size ts ->
  valid_targets (size ls) ts -> ~ NoDup (survivors ls ts ++ adds.*1) ->
  F_Modify H f adds ts = Abort /\ F_ModifyUndo H f adds ts = Abort.
Proof.
  intros Hr Hh Hb Hv Hnd. destruct (reachable_holds f us ls Hr Hh) as (Hi & Hn & _).
  destruct (F_Modify_ok f ls adds ts Hi Hn Hb Hv) as [(Hx & _)|(_ & E1 & E2)]; [|done].
  destruct Hnd. by rewrite spec_remove_perm in Hx.
Qed.
End Hist.

(** ** Transform *)
Lemma valid_leaf_row n ts : valid_targets n ts -> exists L : list cell, size L = n /\ dead 0 L = ts.
Proof.
  intros Hv. exists (leaf_row (replicate (N.to_nat n) 0) ts).
  assert (Hs : size (replicate (N.to_nat n) (0:N)) = n) by (unfold size; rewrite replicate_length; lia).
  split; [by rewrite leaf_row_size|]. apply leaf_row_dead. by rewrite Hs.
Qed.
Lemma C24_lem n R ts : n <= 2 ^ 62 -> is_height n R -> valid_targets n ts ->
  exists rows us, Transform n ts = Ok rows /\ UndoTransform n ts = Ok us /\ size rows <= R /\
    (forall c ss s, rows !! c = Some ss -> s ∈ ss -> exists i j, node n (N.of_nat c) i /\ node n (N.of_nat c) j /\ i <> j /\
       m_from s = enc R (N.of_nat c) i /\ m_to s = enc R (N.of_nat c) j) /\
    Forall2 (fun s u => exists c i j, node n c i /\ node n c j /\ i <> j /\ m_from s = enc R c i /\ m_to s = enc R c j /\
       m_from u = i * 2 ^ c /\ m_to u = j * 2 ^ c /\ (if m_is_range_swap u then m_range u else 1) = 2 ^ c) (mjoin rows) us.
Proof.
  intros Hn HR Hv. apply NumRows_height in HR as <-. destruct (valid_leaf_row n ts Hv) as (L & HL & <-).
  destruct (decide (dead 0 L = [])) as [Hd|Hd].
  { exists [], []. rewrite Hd. rewrite Transform_nil. unfold UndoTransform. rewrite Transform_nil.
    split; [done|]. split; [done|]. split; [unfold size; cbn [length]; lia|]. split; [|constructor]. intros c ss s Hx. by rewrite lookup_nil in Hx. }
  destruct (Transform_ok n L Hn HL Hd) as (h & Hh & Hdd & _ & Et). pose proof (UndoTransform_ok n L h Hn HL Hh Hdd Et) as Eu.
  pose proof (all_swaps_good n L h Hn HL Hh Hdd) as Hg.
  eexists _, _. split; [exact Et|]. split; [exact Eu|]. split; [unfold size; rewrite fmap_length, seq_length; lia|]. split.
  - intros c ss s Hc Hs. apply list_lookup_fmap_Some in Hc as (c' & [-> Hc']%lookup_seq & ->). cbn [plus] in *. rewrite fin_row in Hs.
    apply elem_of_list_fmap in Hs as (x & -> & Hx).
    assert (Hrow : x.1.1 = c). { unfold row_swaps in Hx. apply elem_of_app in Hx as [Hx|Hx]; apply elem_of_list_fmap in Hx as (? & -> & _); done. }
    destruct (Hg x) as (H1 & H2 & H3).
    { unfold all_swaps. apply elem_of_list_In, in_concat. exists (row_swaps n L c). split; [|by apply elem_of_list_In].
      apply elem_of_list_In, elem_of_list_fmap. exists c. split; [done|]. apply elem_of_seq. lia. }
    rewrite Hrow in *. exists x.2.1, x.2.2. unfold sw_of, mk_collapse. cbn [m_from m_to]. rewrite Hrow. done.
  - assert (Hj : mjoin (fin n L <$> seq 0 h) = concat (fin n L <$> seq 0 h)).
    { generalize (fin n L <$> seq 0 h) as l. induction l as [|x l IH]; [done|]. cbn [mjoin list_join concat]. by f_equal. }
    rewrite Hj, concat_fin. apply Forall2_fmap, Forall_Forall2_diag, Forall_forall. intros x Hx. destruct (Hg x Hx) as (H1 & H2 & H3).
    exists (N.of_nat x.1.1), x.2.1, x.2.2. split; [done|]. split; [done|]. split; [done|].
    unfold sw_of, lf_of, mk_collapse, mk_range_swap. cbn [m_from m_to]. split; [done|]. split; [done|].
    destruct x as [[[|c] b] [i j]]; cbn [fst snd m_from m_to m_is_range_swap m_range]; [|done]. change (2 ^ N.of_nat 0) with 1. rewrite !N.mul_1_r. done.
Qed.
