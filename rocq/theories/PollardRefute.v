(** * PollardRefute: histories on which a pollard misbehaves (proofs) *)
From Verif Require Import Base StateModel CodecModel ForestModel PollardModel PosFacts ForestExamples.

(** ** C29: two leaves, the second one remembered; a proof of both with a wrong
    hash for the second one is rejected but leaves the first one marked. *)
Definition adds29 : list leaf := [(10, false); (11, true)].
Definition bp29 : batch_proof := BatchProof [0; 1] [].
Definition run29 (H : hash -> hash -> hash) : res (bool * bool * N * N) :=
  let* r := P_Modify H (Pollard_new 0) adds29 [] in
  let* v := P_Verify H r.2 bp29 [10; 12] in
  Ok (r.1, v.1, P_NumCachedLeaves r.2, P_NumCachedLeaves v.2).
Lemma run29_ok H : run29 H = Ok (true, false, 1, 2).
Proof. vm_compute. reflexivity. Qed.
Lemma C29_refuted_lem H : exists p bp ths p', P_Modify H (Pollard_new 0) adds29 [] = Ok (true, p) /\
  P_Verify H p bp ths = Ok (false, p') /\ P_NumCachedLeaves p = 1 /\ P_NumCachedLeaves p' = 2.
Proof.
  pose proof (run29_ok H) as E. unfold run29 in E. apply bind_ok in E as ([b p] & E1 & E).
  apply bind_ok in E as ([v p'] & E2 & E). cbn [fst snd] in *.
  assert (b = true /\ v = false /\ P_NumCachedLeaves p = 1 /\ P_NumCachedLeaves p' = 2) as (-> & -> & ? & ?) by (split_and!; congruence).
  exists p, bp29, [10; 12], p'. split; [exact E1|]. split; [exact E2|]. by split.
Qed.

(** ** C33: five leaves, the first one remembered, so that the pollard can prove
    it; deleting it dereferences a null pointer. *)
Definition adds33 : list leaf := [(10, true); (11, false); (12, false); (13, false); (14, false)].
Definition run33 (H : hash -> hash -> hash) : res (bool * option (list N) * res unit) :=
  let* r := P_Modify H (Pollard_new 0) adds33 [] in
  let* q := P_Prove r.2 [10] in
  Ok (r.1, m_targets <$> q, let* _ := P_Modify H r.2 [] [0] in Ok ()).
Lemma run33_ub H : run33 H = Ok (true, Some [0], UB).
Proof. vm_compute. reflexivity. Qed.
Lemma C33_refuted_lem H : exists p pf, P_Modify H (Pollard_new 0) adds33 [] = Ok (true, p) /\
  P_Prove p [10] = Ok (Some pf) /\ m_targets pf = [0] /\ P_Modify H p [] [0] = UB.
Proof.
  pose proof (run33_ub H) as E. unfold run33 in E. apply bind_ok in E as ([b p] & E1 & E).
  apply bind_ok in E as (q & E2 & E). cbn [fst snd] in *.
  assert (b = true /\ m_targets <$> q = Some [0] /\ (let* _ := P_Modify H p [] [0] in Ok ()) = UB) as (-> & Eq & Ei) by (split_and!; congruence).
  destruct q as [pf|]; [|done]. exists p, pf. split; [exact E1|]. split; [exact E2|]. split; [by apply (inj Some) in Eq|].
  destruct (P_Modify H p [] [0]); done.
Qed.

(** ** C30: five leaves, the third one remembered; after a verified deletion of
    the leaves 0, 1 and 3 the pollard cannot prove it any more. *)
Definition adds30 : list leaf := [(10, false); (11, false); (12, true); (13, false); (14, false)].
Definition run30 (H : hash -> hash -> hash) : res (bool * bool * bool * bool * bool * option (list N) * option (list N)) :=
  let* f := F_Modify H (RamForest_new 0) adds30 [] in
  let* p := P_Modify H (Pollard_new 0) adds30 [] in
  let* q := F_Prove f.2 [10; 11; 13] in
  match q with
  | None => Abort
  | Some bp =>
      let* v := P_Verify H p.2 bp [10; 11; 13] in
      let* p2 := P_Modify H v.2 [] [0; 1; 3] in
      let* f2 := F_Modify H f.2 [] [0; 1; 3] in
      let* a := F_Prove f2.2 [12] in
      let* b := P_Prove p2.2 [12] in
      Ok (f.1, p.1, v.1, p2.1, f2.1, m_targets <$> a, m_targets <$> b)
  end.
Lemma run30_ok : run30 ex_H = Ok (true, true, true, true, true, Some [0], None).
Proof. vm_compute. reflexivity. Qed.
Lemma run30_inv H : run30 H = Ok (true, true, true, true, true, Some [0], None) -> exists f p bp v p2 f2 pf,
  F_Modify H (RamForest_new 0) adds30 [] = Ok (true, f) /\ P_Modify H (Pollard_new 0) adds30 [] = Ok (true, p) /\
  F_Prove f [10; 11; 13] = Ok (Some bp) /\ P_Verify H p bp [10; 11; 13] = Ok (true, v) /\
  P_Modify H v [] [0; 1; 3] = Ok (true, p2) /\ F_Modify H f [] [0; 1; 3] = Ok (true, f2) /\
  F_Prove f2 [12] = Ok (Some pf) /\ P_Prove p2 [12] = Ok None.
Proof.
  unfold run30. intros E.
  apply bind_ok in E as ([b1 f] & E1 & E). apply bind_ok in E as ([b2 p] & E2 & E). cbn [fst snd] in E.
  apply bind_ok in E as ([bp|] & E3 & E); [|done].
  apply bind_ok in E as ([b3 v] & E4 & E). cbn [fst snd] in E. apply bind_ok in E as ([b4 p2] & E5 & E).
  apply bind_ok in E as ([b5 f2] & E6 & E). cbn [fst snd] in E. apply bind_ok in E as (a & E7 & E). apply bind_ok in E as (b & E8 & E).
  assert (b1 = true /\ b2 = true /\ b3 = true /\ b4 = true /\ b5 = true /\ m_targets <$> a = Some [0] /\ m_targets <$> b = None)
    as (-> & -> & -> & -> & -> & Ea & Eb) by (split_and!; congruence).
  destruct a as [pf|]; [|done]. destruct b; [done|].
  exists f, p, bp, v, p2, f2, pf. split; [exact E1|]. split; [exact E2|]. split; [exact E3|]. split; [exact E4|]. split; [exact E5|].
  split; [exact E6|]. split; [exact E7|]. exact E8.
Qed.
Lemma C30_refuted_lem : exists H f p bp v p2 f2 pf,
  F_Modify H (RamForest_new 0) adds30 [] = Ok (true, f) /\ P_Modify H (Pollard_new 0) adds30 [] = Ok (true, p) /\
  F_Prove f [10; 11; 13] = Ok (Some bp) /\ P_Verify H p bp [10; 11; 13] = Ok (true, v) /\
  P_Modify H v [] [0; 1; 3] = Ok (true, p2) /\ F_Modify H f [] [0; 1; 3] = Ok (true, f2) /\
  F_Prove f2 [12] = Ok (Some pf) /\ P_Prove p2 [12] = Ok None.
Proof. exists ex_H. apply run30_inv, run30_ok. Qed.

(** ** C44: nine leaves; after a verified deletion and two additions, the position
    map still has the leaf 109 at position 5, where 110 is stored now, and the
    pollard makes a proof for it that it does not accept itself. *)
Definition adds44 : list leaf := [(101, false); (102, false); (103, false); (104, true); (105, false); (106, false); (107, false); (108, true); (109, true)].
Definition adds44' : list leaf := [(110, true); (111, false)].
Definition dels44 : list hash := [101; 102; 103; 104; 106].
Definition run44 (H : hash -> hash -> hash) : res (bool * bool * bool * bool * bool * option N * option N * option (list N) * bool) :=
  let* f := F_Modify H (RamForest_new 0) adds44 [] in
  let* p := P_Modify H (Pollard_new 0) adds44 [] in
  let* q := F_Prove f.2 dels44 in
  match q with
  | None => Abort
  | Some bp =>
      let* v := P_Verify H p.2 bp dels44 in
      let* p2 := P_Modify H v.2 adds44' [0; 1; 2; 3; 5] in
      let* f2 := F_Modify H f.2 adds44' [0; 1; 2; 3; 5] in
      let* a := P_Prove p2.2 [109] in
      match a with
      | None => Abort
      | Some pf => let* w := P_Verify H p2.2 pf [109] in
          Ok (f.1, p.1, v.1, p2.1, f2.1, p_posmap p2.2 !! 109, f_posmap f2.2 !! 109, Some (m_targets pf), w.1)
      end
  end.
Lemma run44_ok : run44 ex_H = Ok (true, true, true, true, true, Some 5, Some 1, Some [5], false).
Proof. vm_compute. reflexivity. Qed.
Lemma run44_inv H : run44 H = Ok (true, true, true, true, true, Some 5, Some 1, Some [5], false) -> exists f p bp v p2 f2 pf w,
  F_Modify H (RamForest_new 0) adds44 [] = Ok (true, f) /\ P_Modify H (Pollard_new 0) adds44 [] = Ok (true, p) /\
  F_Prove f dels44 = Ok (Some bp) /\ P_Verify H p bp dels44 = Ok (true, v) /\
  P_Modify H v adds44' [0; 1; 2; 3; 5] = Ok (true, p2) /\ F_Modify H f adds44' [0; 1; 2; 3; 5] = Ok (true, f2) /\
  p_posmap p2 !! 109 = Some 5 /\ f_posmap f2 !! 109 = Some 1 /\ P_Prove p2 [109] = Ok (Some pf) /\ P_Verify H p2 pf [109] = Ok (false, w).
Proof.
  unfold run44. intros E.
  apply bind_ok in E as ([b1 f] & E1 & E). apply bind_ok in E as ([b2 p] & E2 & E). cbn [fst snd] in E.
  apply bind_ok in E as ([bp|] & E3 & E); [|done].
  apply bind_ok in E as ([b3 v] & E4 & E). cbn [fst snd] in E. apply bind_ok in E as ([b4 p2] & E5 & E).
  apply bind_ok in E as ([b5 f2] & E6 & E). cbn [fst snd] in E. apply bind_ok in E as ([pf|] & E7 & E); [|done]. apply bind_ok in E as ([b6 w] & E8 & E). cbn [fst snd] in E.
  assert (b1 = true /\ b2 = true /\ b3 = true /\ b4 = true /\ b5 = true /\ b6 = false /\ p_posmap p2 !! 109 = Some 5 /\ f_posmap f2 !! 109 = Some 1)
    as (-> & -> & -> & -> & -> & -> & Ea & Eb) by (split_and!; congruence).
  exists f, p, bp, v, p2, f2, pf, w. split; [exact E1|]. split; [exact E2|]. split; [exact E3|]. split; [exact E4|]. split; [exact E5|].
  split; [exact E6|]. split; [exact Ea|]. split; [exact Eb|]. split; [exact E7|exact E8].
Qed.
Lemma C44_refuted_lem : exists H f p bp v p2 f2 pf w,
  F_Modify H (RamForest_new 0) adds44 [] = Ok (true, f) /\ P_Modify H (Pollard_new 0) adds44 [] = Ok (true, p) /\
  F_Prove f dels44 = Ok (Some bp) /\ P_Verify H p bp dels44 = Ok (true, v) /\
  P_Modify H v adds44' [0; 1; 2; 3; 5] = Ok (true, p2) /\ F_Modify H f adds44' [0; 1; 2; 3; 5] = Ok (true, f2) /\
  p_posmap p2 !! 109 = Some 5 /\ f_posmap f2 !! 109 = Some 1 /\ P_Prove p2 [109] = Ok (Some pf) /\ P_Verify H p2 pf [109] = Ok (false, w).
Proof. exists ex_H. apply run44_inv, run44_ok. Qed.

(** ** C40: two leaves, the first one with the all-zero hash and the second one
    remembered; verifying a proof of the second leaf that contains no hashes
    reads past the end of the proof. *)
Definition adds40 : list leaf := [(0, false); (5, true)].
Definition run40 (H : hash -> hash -> hash) : res (bool * bool * res unit) :=
  let* f := F_Modify H (RamForest_new 0) adds40 [] in
  let* p := P_Modify H (Pollard_new 0) adds40 [] in
  Ok (f.1, p.1, let* _ := P_Verify H p.2 (BatchProof [1] []) [5] in Ok ()).
Lemma run40_ub H : run40 H = Ok (true, true, UB).
Proof. vm_compute. reflexivity. Qed.
Lemma C40_refuted_lem H : exists f p bp ths, F_Modify H (RamForest_new 0) adds40 [] = Ok (true, f) /\ P_Modify H (Pollard_new 0) adds40 [] = Ok (true, p) /\
  m_sorted_targets bp = sortN (m_targets bp) /\ P_Verify H p bp ths = UB.
Proof.
  pose proof (run40_ub H) as E. unfold run40 in E. apply bind_ok in E as ([b f] & E1 & E). apply bind_ok in E as ([b' p] & E2 & E). cbn [fst snd] in *.
  assert (b = true /\ b' = true /\ (let* _ := P_Verify H p (BatchProof [1] []) [5] in Ok ()) = UB) as (-> & -> & Ei) by (split_and!; congruence).
  exists f, p, (BatchProof [1] []), [5]. split; [exact E1|]. split; [exact E2|]. split; [done|]. destruct (P_Verify H p (BatchProof [1] []) [5]); done.
Qed.
