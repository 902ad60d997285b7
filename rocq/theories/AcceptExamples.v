(** * AcceptExamples: proofs with hashes left out (examples) *)
From stdpp Require Import sorting.
From Verif Require Import Base StateModel CodecModel ForestModel PollardModel PosSpec PosFacts ProofSpec TakeFacts VerifySpec MerkleSpec ForestSpec ForestFacts ProveFacts HistFacts PosmapFacts
  PollardSpec PollardHist PollardProps ForestExamples PollardExamples BindFacts UniqueFacts AcceptFacts PollardRefute.

(** Six leaves of which the first is remembered: the proof of leaves 1 and 4 needs
    the nodes 0, 5 and 9, of which the pollard stores 0 and 9. *)
Definition adds76 : list leaf := [(10, true); (11, false); (12, false); (13, false); (14, false); (15, false)].
Definition bp76 : batch_proof := BatchProof [1; 4] [15].
Definition run76 (H : hash -> hash -> hash) : res (bool * bool * list (option hash) * list hash * bool * bool) :=
  let* f := F_Modify H (RamForest_new 0) adds76 [] in
  let* p := P_Modify H (Pollard_new 0) adds76 [] in
  let* a := P_Read p.2 0 in let* b := P_Read p.2 5 in let* c := P_Read p.2 9 in
  let* a' := F_Read f.2 0 in let* b' := F_Read f.2 5 in let* c' := F_Read f.2 9 in
  let* v := P_Verify H p.2 bp76 [11; 14] in
  let* w := P_Verify H p.2 bp76 [11; 99] in
  Ok (f.1, p.1, [a; b; c], [a'; b'; c'], v.1, w.1).
Lemma run76_ok : run76 ex_H = Ok (true, true, [Some 10; None; Some 102], [10; 15; 102], true, false).
Proof. vm_compute. reflexivity. Qed.
Lemma run76_inv H x y : run76 H = Ok (true, true, x, y, true, false) -> exists f p v w, synced H f p /\ holds_leaves f adds76.*1 /\ p_n p = 6 /\
  Forall2 (fun q x => P_Read p q = Ok x) [0; 5; 9] x /\ Forall2 (fun q h => F_Read f q = Ok h) [0; 5; 9] y /\
  P_Verify H p bp76 [11; 14] = Ok (true, v) /\ P_Verify H p bp76 [11; 99] = Ok (false, w).
Proof.
  unfold run76. intros E. apply bind_ok in E as ([b1 f] & E1 & E). apply bind_ok in E as ([b2 p] & E2 & E). cbn [fst snd] in E.
  apply bind_ok in E as (a & Ea & E). apply bind_ok in E as (b & Eb & E). apply bind_ok in E as (c & Ec & E).
  apply bind_ok in E as (a' & Ea' & E). apply bind_ok in E as (b' & Eb' & E). apply bind_ok in E as (c' & Ec' & E).
  apply bind_ok in E as ([b3 v] & E3 & E). apply bind_ok in E as ([b4 w] & E4 & E). cbn [fst snd] in E.
  assert (b1 = true /\ b2 = true /\ x = [a; b; c] /\ y = [a'; b'; c'] /\ b3 = true /\ b4 = false) as (-> & -> & -> & -> & -> & ->) by (split_and!; congruence).
  assert (Hs : synced H f p) by (by apply (sync_start H adds76)).
  assert (Hh : holds_leaves f adds76.*1).
  { apply (grow_holds H adds76); [exact (eq_refl Lt)| |exact E1]. apply (bool_decide_unpack _). by vm_compute. }
  exists f, p, v, w. split; [exact Hs|]. split; [exact Hh|]. split.
  { destruct (synced_holds H f p _ Hs Hh) as (_ & _ & _ & (Hpn & _) & _). exact Hpn. }
  split; [repeat constructor; done|]. split; [repeat constructor; done|]. split; [exact E3|exact E4].
Qed.
Lemma needs76 : lists_nodes 3 (needed 6 [1; 4]) [0; 5; 9].
Proof.
  assert (Hts : valid_targets 6 [1; 4]) by (split; repeat constructor).
  destruct (ProofPositions_ok 6 ltac:(done) [1; 4] Hts) as (P & C & E & HP & _). change (NumRows 6) with 3 in HP.
  assert (E' : ProofPositions 6 [1; 4] = Ok ([0; 5; 9], [1; 4; 8; 10; 12])) by (vm_compute; reflexivity).
  assert (P = [0; 5; 9]) as <- by congruence. exact HP.
Qed.
Lemma ex_accept : exists f p v w, synced ex_H f p /\ holds_leaves f adds76.*1 /\ proof_wf bp76 /\ valid_targets (size adds76.*1) (m_sorted_targets bp76) /\
  [11; 14] = leaf_at adds76.*1 <$> m_sorted_targets bp76 /\ fills f p (m_sorted_targets bp76) (m_proof bp76) /\
  P_Verify ex_H p bp76 [11; 14] = Ok (true, v) /\ verifies ex_H f p bp76 [11; 99] false w.
Proof.
  destruct (run76_inv _ _ _ run76_ok) as (f & p & v & w & Hs & Hh & Hpn & H1 & H2 & H3 & H4). exists f, p, v, w.
  split; [exact Hs|]. split; [exact Hh|]. split; [done|]. split; [split; repeat constructor|]. split; [vm_compute; reflexivity|]. split.
  { exists 3, [0; 5; 9], [Some 10; None; Some 102], [10; 15; 102]. rewrite Hpn. split; [apply NumRows_height; vm_compute; reflexivity|]. split; [exact needs76|].
    split; [exact H1|]. split; [exact H2|]. cbn [rev app]. apply takes_skip; [done|]. apply takes_new. apply takes_skip; [done|constructor]. }
  split; [exact H3|]. split; [done|]. split; [exact H4|]. intros ls Hh'. assert (ls = adds76.*1) as -> by (by eapply holds_unique).
  destruct (synced_holds ex_H f p _ Hs Hh) as (_ & _ & Hn & HP & _). pose proof (Verify_inv ex_H p _ bp76 [11; 99] HP Hn ltac:(done)) as HV.
  rewrite H4 in HV. cbn [PollardInit.wp] in HV. destruct HV as (_ & _ & Hf & _). destruct (Hf eq_refl) as (_ & HP' & _).
  apply stores_no_collision. apply PInv_stores; [exact HP'|]. done.
Qed.
(** The overrun of C40 and a proof that returns. *)
Lemma ex_overrun H : exists f p, synced H f p /\ holds_leaves f [0; 5] /\ proof_wf (BatchProof [1] []) /\ P_Verify H p (BatchProof [1] []) [5] = UB.
Proof.
  pose proof (run40_ub H) as E. unfold run40 in E. apply bind_ok in E as ([b f] & E1 & E). apply bind_ok in E as ([b' p] & E2 & E). cbn [fst snd] in *.
  assert (b = true /\ b' = true /\ (let* _ := P_Verify H p (BatchProof [1] []) [5] in Ok ()) = UB) as (-> & -> & Ei) by (split_and!; congruence).
  exists f, p. split; [by apply (sync_start H adds40)|]. split.
  { apply (grow_holds H adds40); [exact (eq_refl Lt)| |exact E1]. apply (bool_decide_unpack _). by vm_compute. }
  split; [done|]. destruct (P_Verify H p (BatchProof [1] []) [5]); done.
Qed.
(** A pollard that stores less: one built from the roots. *)
Definition poss76 : list N := [0; 1; 2; 3; 4; 5; 8; 9; 10; 12].
Fixpoint within (q p : pollard) (ps : list N) : res bool :=
  match ps with
  | [] => Ok true
  | x :: ps' => let* a := P_Read q x in let* b := P_Read p x in let* r := within q p ps' in Ok ((bool_decide (a = None) || bool_decide (a = b)) && r)
  end.
Lemma within_ok q p ps : within q p ps = Ok true -> forall x h, x ∈ ps -> P_Read q x = Ok (Some h) -> P_Read p x = Ok (Some h).
Proof.
  induction ps as [|y ps IH]; intros E x h Hx Ex; [by apply elem_of_nil in Hx|]. cbn [within] in E.
  apply bind_ok in E as (a & Ea & E). apply bind_ok in E as (b & Eb & E). apply bind_ok in E as (r & Er & E). injection E as E. apply andb_true_iff in E as [E1 E2]. subst r.
  apply elem_of_cons in Hx as [->|Hx]; [|by apply IH]. rewrite Ea in Ex. injection Ex as ->. apply orb_true_iff in E1 as [E1|E1]; apply bool_decide_eq_true in E1; [done|by subst b].
Qed.
Definition run58m (H : hash -> hash -> hash) : res (bool * bool * N * bool * bool) :=
  let* f := F_Modify H (RamForest_new 0) adds76 [] in
  let* p := P_Modify H (Pollard_new 0) adds76 [] in
  let* q := Pollard_restore (F_Roots f.2) (f_n f.2) in
  let* w := within q p.2 poss76 in
  let* v := P_Verify H q (BatchProof [1; 4] [10; 15; 102]) [11; 14] in
  Ok (f.1, p.1, p_n q, w, v.1).
Lemma run58m_ok : run58m ex_H = Ok (true, true, 6, true, true).
Proof. vm_compute. reflexivity. Qed.
Lemma nodes76 R r i : is_height 6 R -> node 6 r i -> enc R r i ∈ poss76.
Proof.
  intros HR Hi. apply NumRows_height in HR as <-. pose proof (node_row _ _ _ Hi) as Hr. change (NumRows 6) with 3 in *. unfold node in Hi.
  assert (Hr' : r = 0 \/ r = 1 \/ r = 2 \/ r = 3) by lia. unfold poss76.
  destruct Hr' as [-> |[-> |[-> | ->]]].
  - change (2 ^ 0) with 1 in Hi. assert (Hc : i = 0 \/ i = 1 \/ i = 2 \/ i = 3 \/ i = 4 \/ i = 5) by lia.
    repeat (destruct Hc as [->|Hc]; [vm_compute; repeat constructor|]). subst i. vm_compute. repeat constructor.
  - change (2 ^ 1) with 2 in Hi. assert (Hc : i = 0 \/ i = 1 \/ i = 2) by lia.
    repeat (destruct Hc as [->|Hc]; [vm_compute; repeat constructor|]). subst i. vm_compute. repeat constructor.
  - change (2 ^ 2) with 4 in Hi. assert (i = 0) as -> by lia. vm_compute. repeat constructor.
  - change (2 ^ 3) with 8 in Hi. lia.
Qed.
Lemma run58m_inv H : run58m H = Ok (true, true, 6, true, true) -> exists f p q v, synced H f q /\ synced H f p /\ holds_leaves f adds76.*1 /\ stores_more q p /\ P_Verify H q (BatchProof [1; 4] [10; 15; 102]) [11; 14] = Ok (true, v).
Proof.
  unfold run58m. intros E. apply bind_ok in E as ([b1 f] & E1 & E). apply bind_ok in E as ([b2 p] & E2 & E). cbn [fst snd] in E.
  apply bind_ok in E as (q & Eq & E). apply bind_ok in E as (w & Ew & E). apply bind_ok in E as ([b3 v] & E3 & E). cbn [fst snd] in E.
  assert (b1 = true /\ b2 = true /\ p_n q = 6 /\ w = true /\ b3 = true) as (-> & -> & Hqn & -> & ->) by (split_and!; congruence).
  assert (Hs : synced H f p) by (by apply (sync_start H adds76)).
  assert (Hh : holds_leaves f adds76.*1).
  { apply (grow_holds H adds76); [exact (eq_refl Lt)| |exact E1]. apply (bool_decide_unpack _). by vm_compute. }
  destruct (synced_holds H f p _ Hs Hh) as (us & Hr & _ & (Hpn & _) & _). change (size adds76.*1) with 6 in Hpn.
  exists f, p, q, v. split; [by apply (sy_restore H f us)|]. split; [exact Hs|]. split; [exact Hh|]. split; [|exact E3].
  split; [congruence|]. intros R r i h HR Hi. rewrite Hqn in HR, Hi. apply (within_ok q p poss76 Ew). by apply nodes76.
Qed.
Lemma ex_more : exists f p q v, synced ex_H f q /\ synced ex_H f p /\ holds_leaves f adds76.*1 /\ stores_more q p /\
  P_Verify ex_H q (BatchProof [1; 4] [10; 15; 102]) [11; 14] = Ok (true, v).
Proof. exact (run58m_inv ex_H run58m_ok). Qed.
