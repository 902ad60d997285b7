(** * OwnExamples: a proof a pollard makes, and one it does not (examples) *)
From stdpp Require Import sorting.
From Verif Require Import Base StateModel CodecModel ForestModel PollardModel PosSpec PosFacts PosmapFacts MerkleSpec TargetFacts ForestFacts RowFacts SpecFacts RemoveFacts ForestInv ForestSpec HistFacts
  ProofSpec ProveFacts VerifySpec PollardSpec PollardRemove PollardHist PollardProps PollardRecall ForestExamples PollardRefute PollardExamples UniqueFacts OwnFacts.
From Coq Require Import ZifyBool ZifyNat ZifyN.
Ltac Zify.zify_post_hook ::= idtac.

(** Nine leaves [adds], of which five are deleted and two added. *)
Definition dels79 : list hash := [101; 102; 103; 104; 106].
Definition ts79 : list N := [0; 1; 2; 3; 5].
Definition run79 (H : hash -> hash -> hash) (adds adds' : list leaf) (hs : list hash) : res (bool * bool * N * list (option N) * option (list N * list hash)) :=
  let* f := F_Modify H (RamForest_new 0) adds [] in
  let* p := P_Modify H (Pollard_new 0) adds [] in
  let* q := F_Prove f.2 dels79 in
  match q with
  | None => Abort
  | Some bp =>
      let* v := P_Verify H p.2 bp dels79 in
      let* p2 := P_Modify H v.2 adds' ts79 in
      let* f2 := F_Modify H f.2 adds' ts79 in
      let* a := P_Prove p2.2 hs in
      Ok (f.1, p.1, p_n p2.2, (λ h, p_posmap p2.2 !! h) <$> hs, (λ pf, (m_targets pf, m_proof pf)) <$> a)
  end.
Lemma run79_inv H (adds adds' : list leaf) hs n ps x : run79 H adds adds' hs = Ok (true, true, n, ps, x) -> NoDup adds.*1 ->
  size adds + size adds' < 2 ^ 31 -> valid_targets (size adds) ts79 -> leaf_at adds.*1 <$> ts79 = dels79 -> NoDup (spec_remove adds.*1 ts79 ++ adds'.*1) ->
  exists f p a, synced H f p /\ holds_leaves f (spec_remove adds.*1 ts79 ++ adds'.*1) /\ p_n p = n /\ (λ h, p_posmap p !! h) <$> hs = ps /\
    P_Prove p hs = Ok a /\ (λ pf, (m_targets pf, m_proof pf)) <$> a = x.
Proof.
  intros E Hnd Hb Hts Edel Hnd'. unfold run79 in E. apply bind_ok in E as ([b1 f] & E1 & E). apply bind_ok in E as ([b2 p] & E2 & E). cbn [fst snd] in E.
  apply bind_ok in E as (q & E3 & E). destruct q as [bp|]; [|discriminate E]. apply bind_ok in E as (v & E4 & E). apply bind_ok in E as (p2 & E5 & E). apply bind_ok in E as (f2 & E6 & E).
  apply bind_ok in E as (a & E7 & E). assert (b1 = true /\ b2 = true) as [-> ->] by (split; congruence).
  assert (Hsz : size adds < 2 ^ 31) by lia. assert (Hs : synced H f p) by (by apply (sync_start H adds)).
  assert (Hh : holds_leaves f adds.*1) by (by apply (grow_holds H adds)).
  destruct (sync_step H f p adds.*1 adds' ts79 Hs Hh) as (bp' & v' & f' & p' & F1 & _ & F2 & _ & F3 & F4 & Hs' & Hh').
  { assert (Esz : size adds.*1 = size adds) by (unfold size; by rewrite fmap_length). rewrite Esz. generalize (2 ^ 31) (size ts79) Hb. clear. intros. lia. }
  { unfold size in *. by rewrite fmap_length. }
  { done. }
  rewrite Edel in F1, F2. rewrite E3 in F1. apply Ok_inv in F1. injection F1 as <-. rewrite E4 in F2. apply Ok_inv in F2 as ->. cbn [snd] in E5.
  rewrite E5 in F4. apply Ok_inv in F4 as ->. rewrite E6 in F3. apply Ok_inv in F3 as ->. cbn [snd] in *. apply Ok_inv in E.
  exists f', p', a. split; [done|]. split; [done|]. split_and!; [congruence|congruence|done|congruence].
Qed.

(** Leaf 109 alone is to be remembered.  Its entry in the position map is 5, a leaf
    position; but the sibling is not stored. *)
Definition adds79 : list leaf := [(101, false); (102, false); (103, false); (104, false); (105, false); (106, false); (107, false); (108, false); (109, true)].
Lemma run79_none : run79 ex_H adds79 [(110, false); (111, false)] [109] = Ok (true, true, 6, [Some 5], None).
Proof. vm_compute. reflexivity. Qed.
Lemma run79_some : run79 ex_H adds44 adds44' [110; 108] = Ok (true, true, 6, [Some 4; Some 3], Some ([4; 3], [107; 111; 861])).
Proof. vm_compute. reflexivity. Qed.
Lemma ex_own_none : exists f p, synced ex_H f p /\ p_n p = 6 /\ p_posmap p !! 109 = Some 5 /\ P_Prove p [109] = Ok None.
Proof.
  destruct (run79_inv _ _ _ _ _ _ _ run79_none) as (f & p & a & Hs & _ & Hn & Hp & E & Ea); [apply (bool_decide_unpack _); by vm_compute|done|split; repeat constructor|vm_compute; reflexivity|apply (bool_decide_unpack _); by vm_compute|].
  destruct a; [discriminate Ea|]. injection Hp as Hp. by exists f, p.
Qed.
Lemma ex_own_some : exists f p ls bp, synced ex_H f p /\ holds_leaves f ls /\ size ls = 6 /\ P_Prove p [110; 108] = Ok (Some bp) /\ m_targets bp = [4; 3] /\ m_proof bp = [107; 111; 861].
Proof.
  destruct (run79_inv _ _ _ _ _ _ _ run79_some) as (f & p & a & Hs & Hh & Hn & Hp & E & Ea); [apply (bool_decide_unpack _); by vm_compute|done|split; repeat constructor|vm_compute; reflexivity|apply (bool_decide_unpack _); by vm_compute|].
  destruct a as [bp|]; [|discriminate Ea]. injection Ea as E1 E2. exists f, p. eexists. exists bp. split; [done|]. split; [exact Hh|]. split; [vm_compute; reflexivity|]. done.
Qed.
