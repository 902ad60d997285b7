(** * PollardExamples: concrete histories meeting the hypotheses of the pollard
    properties (proofs) *)
From stdpp Require Import sorting.
From Verif Require Import Base StateModel CodecModel ForestModel PollardModel PosSpec PosFacts MerkleSpec TargetFacts ForestFacts RowFacts SpecFacts RemoveFacts ForestInv ForestSpec HistFacts
  ProofSpec ProveFacts PollardSpec PollardRemove PollardHist PollardProps PollardRecall ForestExamples PollardRefute.
Ltac Zify.zify_post_hook ::= idtac.

Lemma sync_step H f p ls (adds : list leaf) ts : synced H f p -> holds_leaves f ls -> size ls + size adds < 2 ^ 31 + size ts ->
  valid_targets (size ls) ts -> NoDup (spec_remove ls ts ++ adds.*1) ->
  exists bp v f' p', F_Prove f (leaf_at ls <$> ts) = Ok (Some bp) /\ m_sorted_targets bp = ts /\ P_Verify H p bp (leaf_at ls <$> ts) = Ok (true, v) /\
    verifies H f p bp (leaf_at ls <$> ts) true v /\ F_Modify H f adds ts = Ok (true, f') /\ P_Modify H v adds ts = Ok (true, p') /\
    synced H f' p' /\ holds_leaves f' (spec_remove ls ts ++ adds.*1).
Proof.
  intros Hs Hh Hb Hv Hnd. destruct (synced_holds H f p ls Hs Hh) as (us & Hr & Hn & HP & _). pose proof Hh as [Hfn Hg].
  destruct (step_ok H f us ls adds ts Hr Hh Hb Hv Hnd) as (u & f' & EF & _ & _ & _ & Hh').
  assert (Hlt : forall t, t ∈ ts -> t < size ls) by (apply Forall_forall, Hv).
  assert (Hfl : forall t, t ∈ ts -> f_posmap f !! leaf_at ls t = Some t).
  { intros t Ht. apply (C07_lem H f us _ _ Hr). rewrite Hfn. split; [by apply Hlt|]. by apply Hg, Hlt. }
  assert (HhR : is_height (f_n f) (NumRows (f_n f))) by (by apply NumRows_height).
  destruct (C06_lem H f us ls (leaf_at ls <$> ts) _ Hr Hh HhR) as [_ Hgood].
  destruct Hgood as (bp & ps & EP & HF & Hperm & Hsrt & _).
  { apply NoDup_fmap_2_strong; [|apply sorted_lt_NoDup, Hv]. intros x y Hx Hy E. apply Hfl in Hx, Hy. rewrite E in Hx. congruence. }
  { intros h (t & -> & Ht)%elem_of_list_fmap. apply Hlt in Ht. unfold leaf_at, size in *. apply elem_of_list_lookup_total_2. lia. }
  assert (Et : m_targets bp = ts).
  { apply Forall2_fmap_l in HF. clear - HF Hfl Hr. revert HF. generalize (m_targets bp) as us'. induction ts as [|t ts IH]; intros us' HF.
    - by apply Forall2_nil_inv_l in HF.
    - apply Forall2_cons_inv_l in HF as (t' & us2 & Ht & HF & ->). rewrite (IH ltac:(intros; apply Hfl; by right) us2 HF). f_equal.
      apply (C07_lem H f us _ _ Hr) in Ht. rewrite (Hfl t ltac:(left)) in Ht. by injection Ht. }
  assert (Es : m_sorted_targets bp = ts).
  { rewrite Et in Hperm. apply (StronglySorted_unique N.le); [by apply sorted_lt_le|apply sorted_lt_le, Hv|done]. }
  destruct (C26_lem H f p (leaf_at ls <$> ts) bp (leaf_at ls <$> ts) Hs EP) as (v & EV & Hver & _).
  { rewrite Es. clear - Hg Hlt. induction ts as [|t ts IH]; [constructor|]. constructor; [by apply Hg, Hlt; left|].
    apply IH. intros; apply Hlt; by right. }
  destruct (C25_progress_lem H f p bp _ v adds Hs Hver) as (p' & EPM); [by rewrite Hfn, Es|].
  rewrite Es in EPM. exists bp, v, f', p'. split; [done|]. split; [done|]. split; [done|]. split; [done|]. split; [done|]. split; [done|]. split; [|done].
  eapply (sy_modify H f p bp _ v adds f' p'); [done|done|by rewrite Hfn, Es|by rewrite Es|by rewrite Es].
Qed.

(** Seven leaves, two of them remembered; three deleted and two added. *)
Definition ex_adds0 : list leaf := [(10, false); (11, true); (12, false); (13, false); (14, true); (15, false); (16, false)].
Lemma ex_sync : exists f p bp v f' p', synced ex_H f p /\ holds_leaves f ex_ls /\ F_Prove f [11; 12; 15] = Ok (Some bp) /\ m_sorted_targets bp = ex_ts /\
  P_Verify ex_H p bp [11; 12; 15] = Ok (true, v) /\ verifies ex_H f p bp [11; 12; 15] true v /\ F_Modify ex_H f ex_adds ex_ts = Ok (true, f') /\
  P_Modify ex_H v ex_adds ex_ts = Ok (true, p') /\ synced ex_H f' p' /\ holds_leaves f' ex_ls'.
Proof.
  destruct (sync_step ex_H (RamForest_new 0) (Pollard_new 0) [] ex_adds0 []) as (bp0 & v0 & f & p & _ & _ & _ & _ & _ & _ & Hs & Hh).
  - constructor.
  - split; [done|]. intros i Hi. change (size (@nil N)) with 0 in Hi. lia.
  - done.
  - apply valid_nil.
  - apply (bool_decide_unpack _). by vm_compute.
  - change (holds_leaves f ex_ls) in Hh.
    destruct (sync_step ex_H f p ex_ls ex_adds ex_ts Hs Hh) as (bp & v & f' & p' & E1 & E2 & E3 & E4 & E5 & E6 & E7 & E8).
    + done.
    + apply ex_valid.
    + apply (bool_decide_unpack _). by vm_compute.
    + exists f, p, bp, v, f', p'. split; [done|]. split; [done|]. split; [done|]. split; [done|]. split; [done|]. split; [done|]. split; [done|]. split; [done|]. split; done.
Qed.

(** The same history, with the leaves that are remembered. *)
Lemma recalls_eq H f p lo hi lo' hi' : recalls H f p lo hi -> lo = lo' -> hi = hi' -> recalls H f p lo' hi'.
Proof. by intros Hr <- <-. Qed.
Lemma ex_recall : exists f p bp v f' p', recalls ex_H f p {[11; 14]} {[11; 14]} /\ holds_leaves f ex_ls /\ verifies ex_H f p bp [11; 12; 15] true v /\ m_sorted_targets bp = ex_ts /\
  F_Modify ex_H f ex_adds ex_ts = Ok (true, f') /\ P_Modify ex_H v ex_adds ex_ts = Ok (true, p') /\ recalls ex_H f' p' {[14; 21]} {[14; 21]} /\ holds_leaves f' ex_ls'.
Proof.
  destruct (sync_step ex_H (RamForest_new 0) (Pollard_new 0) [] ex_adds0 []) as (bp0 & v0 & f & p & _ & Hts0 & _ & Hv0 & EF0 & EP0 & Hs & Hh).
  - constructor.
  - split; [done|]. intros i Hi. change (size (@nil N)) with 0 in Hi. lia.
  - done.
  - apply valid_nil.
  - apply (bool_decide_unpack _). by vm_compute.
  - change (holds_leaves f ex_ls) in Hh.
    destruct (sync_step ex_H f p ex_ls ex_adds ex_ts Hs Hh) as (bp & v & f' & p' & E1 & E2 & E3 & E4 & E5 & E6 & E7 & E8).
    + done.
    + apply ex_valid.
    + apply (bool_decide_unpack _). by vm_compute.
    + assert (Hr : recalls ex_H f p {[11; 14]} {[11; 14]}).
      { eapply recalls_eq; [eapply (rc_modify ex_H _ _ ∅ ∅ bp0 _ v0 ex_adds0 f p); [constructor|exact Hv0| |by rewrite Hts0|by rewrite Hts0]; by rewrite Hts0| |];
          apply (bool_decide_unpack _); by vm_compute. }
      exists f, p, bp, v, f', p'. split; [exact Hr|]. split; [done|]. split; [done|]. split; [done|]. split; [done|]. split; [done|]. split; [|done].
      eapply recalls_eq; [eapply (rc_modify ex_H f p _ _ bp _ v ex_adds f' p'); [exact Hr|exact E4| |by rewrite E2|by rewrite E2]; destruct Hh as [-> _]; by rewrite E2| |];
        apply (bool_decide_unpack _); by vm_compute.
Qed.

Lemma ex_cached : exists f p, recalls ex_H f p {[14; 21]} {[14; 21]} /\ holds_leaves f ex_ls' /\ P_NumCachedLeaves p = 2.
Proof.
  destruct ex_recall as (_ & _ & _ & _ & f & p & _ & _ & _ & _ & _ & _ & Hr & Hh). exists f, p. split; [done|]. split; [done|].
  pose proof (C42_lem ex_H f p _ _ Hr) as Hc. assert (Hs : base.size ({[14; 21]} : gmap.gset N) = 2%nat) by (vm_compute; reflexivity). rewrite Hs in Hc. lia.
Qed.
Lemma ex_height : is_height (size ex_ls') 3.
Proof. by apply NumRows_height. Qed.
Lemma ex_needed : exists f p, recalls ex_H f p {[14; 21]} {[14; 21]} /\ 2 < f_n f /\ F_GetLeaf f 2 = Ok 14 /\ is_height (f_n f) 3 /\ needed (f_n f) [2] 0 3 /\ needed (f_n f) [2] 1 0.
Proof.
  destruct ex_recall as (_ & _ & _ & _ & f & p & _ & _ & _ & _ & _ & _ & Hr & [Hn Hg]). exists f, p. split; [done|].
  pose proof (Hg 2 ltac:(done)) as Hl. change (size ex_ls') with 6 in Hn. rewrite Hn. split; [done|]. split; [exact Hl|]. split; [by apply NumRows_height|].
  assert (N1 : node 6 0 2) by done. assert (N2 : node 6 1 1) by done. assert (N3 : node 6 2 0) by done. split; (split; [|split]).
  - split; [done|]. exists 2. split; [left|done].
  - intros [_ Hx]. by apply Hx.
  - intros (_ & t & ->%elem_of_list_singleton & E). done.
  - split; [done|]. exists 2. split; [left|done].
  - intros [_ Hx]. by apply Hx.
  - intros (_ & t & ->%elem_of_list_singleton & E). done.
Qed.
Lemma ex_positions : exists f p bp v f' p', synced ex_H f p /\ holds_leaves f ex_ls /\ verifies ex_H f p bp [11; 12; 15] true v /\
  f_n f + size ex_adds < 2 ^ 31 + size (m_sorted_targets bp) /\
  F_Modify ex_H f ex_adds (m_sorted_targets bp) = Ok (true, f') /\ P_Modify ex_H v ex_adds (m_sorted_targets bp) = Ok (true, p') /\ (21, true) ∈ ex_adds.
Proof.
  destruct ex_recall as (f & p & bp & v & f' & p' & H1 & Hh & H3 & H4 & H5 & H6 & _). exists f, p, bp, v, f', p'. split; [by eapply recalls_synced|]. rewrite H4.
  split; [done|]. split; [done|]. split; [by destruct Hh as [-> _]|]. split; [done|]. split; [done|]. by right; left.
Qed.
Lemma ex_placed : exists f p, recalls ex_H f p {[14; 21]} {[14; 21]} /\ holds_leaves f ex_ls' /\ forall h, h ∈ [21] -> h ∈ ({[14; 21]} : gmap.gset N) /\ p_posmap p !! h = f_posmap f !! h.
Proof.
  destruct ex_recall as (f & p & bp & v & f' & p' & H1 & Hh & H3 & H4 & H5 & H6 & H7 & H8). exists f', p'. split; [done|]. split; [done|].
  intros h ->%elem_of_list_singleton. split; [apply (bool_decide_unpack _); by vm_compute|].
  eapply (C44_modify_lem ex_H f p bp [11; 12; 15] v ex_adds f' p' 21); [by eapply recalls_synced|done| |by rewrite H4|by rewrite H4|by right; left].
  rewrite H4. by destruct Hh as [-> _].
Qed.

(** Adding leaves to an empty forest and an empty pollard. *)
Lemma verify_nothing H : P_Verify H (Pollard_new 0) (BatchProof [] []) [] = Ok (true, Pollard_new 0).
Proof. vm_compute. reflexivity. Qed.
Lemma sync_start H (adds : list leaf) f p : size adds < 2 ^ 31 -> F_Modify H (RamForest_new 0) adds [] = Ok (true, f) ->
  P_Modify H (Pollard_new 0) adds [] = Ok (true, p) -> synced H f p.
Proof.
  intros Hb EF EP. apply (sy_modify H (RamForest_new 0) (Pollard_new 0) (BatchProof [] []) [] (Pollard_new 0) adds); [constructor| | |exact EF|exact EP].
  - split; [done|]. split; [apply verify_nothing|]. intros ls Hh. apply stores_no_collision, PInv_stores.
    + destruct Hh as [Hl _]. change (0 = size ls) in Hl. destruct ls; [apply PInv_new|]. unfold size in Hl. cbn [length] in Hl. lia.
    + destruct Hh as [<- _]. done.
  - change (m_sorted_targets (BatchProof [] [])) with (@nil N). change (f_n (RamForest_new 0)) with 0. change (size (@nil N)) with 0. lia.
Qed.

(** The hash [ex_H] has collisions, and with one of them a pollard can be made to
    accept a leaf that is not there. *)
Definition adds_forge : list leaf := [(10, false); (11, false)].
Definition run_forge (H : hash -> hash -> hash) : res (bool * bool * bool * bool) :=
  let* f := F_Modify H (RamForest_new 0) adds_forge [] in
  let* p := P_Modify H (Pollard_new 0) adds_forge [] in
  let* v := P_Verify H p.2 (BatchProof [0] [8]) [15] in
  let* w := P_Verify H p.2 (BatchProof [0] [9]) [15] in
  Ok (f.1, p.1, v.1, w.1).
Lemma run_forge_ok : run_forge ex_H = Ok (true, true, true, false).
Proof. vm_compute. reflexivity. Qed.
Lemma run_forge_inv H : run_forge H = Ok (true, true, true, false) -> exists f p v w, synced H f p /\ F_Modify H (RamForest_new 0) adds_forge [] = Ok (true, f) /\
  P_Verify H p (BatchProof [0] [8]) [15] = Ok (true, v) /\ P_Verify H p (BatchProof [0] [9]) [15] = Ok (false, w).
Proof.
  unfold run_forge. intros E. apply bind_ok in E as ([b1 f] & E1 & E). apply bind_ok in E as ([b2 p] & E2 & E). cbn [fst snd] in E.
  apply bind_ok in E as ([b3 v] & E3 & E). apply bind_ok in E as ([b4 w] & E4 & E). cbn [fst snd] in E.
  assert (b1 = true /\ b2 = true /\ b3 = true /\ b4 = false) as (-> & -> & -> & ->) by (split_and!; congruence).
  exists f, p, v, w. split; [|split; [exact E1|split; [exact E3|exact E4]]]. by apply (sync_start H adds_forge).
Qed.
Lemma ex_forge : exists f p v w, synced ex_H f p /\ holds_leaves f [10; 11] /\
  P_Verify ex_H p (BatchProof [0] [8]) [15] = Ok (true, v) /\ P_Verify ex_H p (BatchProof [0] [9]) [15] = Ok (false, w).
Proof.
  destruct (run_forge_inv ex_H run_forge_ok) as (f & p & v & w & Hs & EF & E3 & E4). exists f, p, v, w. split; [done|]. split; [|split; [exact E3|exact E4]].
  destruct (step_ok ex_H (RamForest_new 0) [] [] adds_forge []) as (u & f' & EF' & _ & _ & _ & Hh).
  - constructor.
  - split; [done|]. intros i Hi. change (size (@nil N)) with 0 in Hi. lia.
  - done.
  - apply valid_nil.
  - apply (bool_decide_unpack _). by vm_compute.
  - assert (f' = f) as -> by congruence. exact Hh.
Qed.
Lemma ex_nonzero : exists f p, synced ex_H f p /\ holds_leaves f [10; 11] /\
  forall R r i, is_height 2 R -> node 2 r i -> P_Read p (enc R r i) <> Ok (Some zero_hash).
Proof.
  destruct ex_forge as (f & p & v & w & Hs & Hh & _). exists f, p. split; [done|]. split; [done|].
  destruct (synced_holds ex_H f p _ Hs Hh) as (us & Hr & Hn & HP & _). intros R r i HR Hi E.
  pose proof (PInv_stores ex_H p [10; 11] HP ltac:(done)) as Hst. rewrite <- (N2Nat.id r) in E, Hi. apply (Hst R (N.to_nat r) i _ HR Hi) in E.
  rewrite N2Nat.id in Hi. apply NumRows_height in HR. assert (Hr2 : r = 0 \/ r = 1).
  { apply node_row in Hi. change (NumRows 2) with 1 in Hi. lia. }
  destruct Hr2 as [-> | ->]; unfold node in Hi.
  - change (2 ^ 0) with 1 in Hi. assert (i = 0 \/ i = 1) as [-> | ->] by lia; vm_compute in E; done.
  - change (2 ^ 1) with 2 in Hi. assert (i = 0) as -> by lia. vm_compute in E; done.
Qed.
