(** * CheckedPollard: Verify with its internal checks (proofs) *)
From Verif Require Import Base StateModel CodecModel ForestModel PollardModel CheckedModel PosSpec PosFacts PathFacts ForestSpec HistFacts PollardSpec PollardHist PollardProps
  PosmapFacts PollardKeys ForestExamples PollardExamples PollardRefute.
From Coq Require Import ZifyBool ZifyNat ZifyN.
Ltac Zify.zify_post_hook ::= idtac.

(** ** The checks change nothing but, possibly, that the program stops *)
Definition stops_or {A} (m' m : res A) : Prop := m' = Abort \/ m' = m.
Lemma stops_or_bind {A B} (m' m : res A) (k' k : A -> res B) y : stops_or m' m -> (forall x, m = Ok x -> k x = Ok y -> stops_or (k' x) (Ok y)) ->
  bind m k = Ok y -> stops_or (bind m' k') (Ok y).
Proof. intros [->| ->] Hk E; [by left|]. apply bind_inv in E as (x & -> & E). cbn [bind]. by apply Hk. Qed.

Section Checked.
Context (H : hash -> hash -> hash).

Lemma leaf_check_ok p t ths next x r : p_n p <= 2 ^ 62 -> verify_node H p t ths next x = Ok r -> stops_or (leaf_check p t ths x) (Ok tt).
Proof.
  intros Hn. unfold verify_node, leaf_check. intros E. apply bind_inv in E as (w & -> & E). cbn [bind].
  destruct (v_target (w_flag w)); cbn [negb orb] in *; [|by right]. apply bind_inv in E as (t1 & _ & E).
  destruct (w_pos w <? p_n p); cbn [negb]; [|by right]. destruct ths as [|th ths]; [by right|]. cbn [assert_ bind].
  apply bind_inv in E as (i & -> & E). cbn [bind]. destruct (v_cached (w_flag w)); cbn [negb]; [|by right].
  destruct (i_hash i.2 =? th); cbn [negb]; [|by right]. rewrite RootPosition_ok by lia. cbn [bind].
  destruct (_ || _); [by right|by left].
Qed.
Lemma V_verify_node_ok p t ths next x r : p_n p <= 2 ^ 62 -> verify_node H p t ths next x = Ok r -> stops_or (V_verify_node H p t ths next x) (Ok r).
Proof. intros Hn E. unfold V_verify_node. destruct (leaf_check_ok _ _ _ _ _ _ Hn E) as [->| ->]; [by left|]. by right. Qed.
Lemma verify_node_n p t ths next x p' t' ths' next' v : verify_node H p t ths next x = Ok (p', t', ths', next', v) -> p_n p' = p_n p.
Proof.
  unfold verify_node. intros E. apply bind_inv in E as (w & _ & E). destruct (negb _) in E; [by apply Ok_inv in E; injection E as <- _|].
  apply bind_inv in E as (t1 & _ & E). destruct (w_pos w <? p_n p).
  - destruct ths as [|th ths0]; [by apply Ok_inv in E; injection E as <- _|]. apply bind_inv in E as (i & _ & E).
    apply bind_inv in E as ([[p1 t2] ok] & E1 & E).
    assert (En : p_n p1 = p_n p).
    { destruct (v_cached (w_flag w)) in E1; [|by apply Ok_inv in E1; injection E1 as <- _].
      destruct (_ =? th) in E1; [|by apply Ok_inv in E1; injection E1 as <- _]. apply bind_inv in E1 as (? & _ & E1). by apply Ok_inv in E1; injection E1 as <- _. }
    destruct (negb ok) in E; [by apply Ok_inv in E; injection E as <- _|]. apply bind_inv in E as (s & _ & E). apply Ok_inv in E. by injection E as <- _.
  - destruct (negb _ && _) in E.
    + apply bind_inv in E as (ok & _ & E). destruct (negb ok) in E; [by apply Ok_inv in E; injection E as <- _|].
      apply bind_inv in E as (? & _ & E). by apply Ok_inv in E; injection E as <- _.
    + destruct (_ && _) in E; [by apply Ok_inv in E; injection E as <- _|]. apply bind_inv in E as (p1 & E1 & E). apply bind_inv in E as (? & _ & E).
      apply Ok_inv in E. injection E as <- _. unfold P_ReHashNoPrune in E1. apply bind_inv in E1 as (s & _ & E1).
      destruct (_ || _) in E1; [by apply Ok_inv in E1 as <-|]. do 3 (apply bind_inv in E1 as (? & _ & E1)). by apply Ok_inv in E1 as <-.
Qed.
Lemma V_verify_row_ok xs : forall p t ths next r, p_n p <= 2 ^ 62 -> verify_row H p t ths next xs = Ok r ->
  stops_or (V_verify_row H p t ths next xs) (Ok r) /\ p_n r.1.1.1.1 = p_n p.
Proof.
  induction xs as [|x xs IH]; intros p t ths next r Hn E; cbn [verify_row V_verify_row] in *; [apply Ok_inv in E as <-; split; [by right|done]|].
  apply bind_inv in E as ([[[[p1 t1] ths1] next1] v] & E1 & E). pose proof (verify_node_n _ _ _ _ _ _ _ _ _ _ E1) as En.
  destruct (V_verify_node_ok _ _ _ _ _ _ Hn E1) as [->| ->]; cbn [bind].
  - split; [by left|]. destruct v; [|by apply Ok_inv in E as <-..]. destruct (IH _ _ _ _ _ ltac:(by rewrite En) E) as [_ ->]. done.
  - destruct v; [|by apply Ok_inv in E as <-; split; [right|]..]. destruct (IH _ _ _ _ _ ltac:(by rewrite En) E) as [H1 ->]. done.
Qed.
Lemma V_verify_rows_ok fuel : forall p t ths xs r, p_n p <= 2 ^ 62 -> verify_rows H fuel p t ths xs = Ok r -> stops_or (V_verify_rows H fuel p t ths xs) (Ok r).
Proof.
  induction fuel as [|fuel IH]; intros p t ths xs r Hn E; cbn [verify_rows V_verify_rows] in *; (destruct xs as [|x xs]; [by right|]); [done|].
  apply bind_inv in E as ([[[[p1 t1] ths1] next1] v] & E1 & E). destruct (V_verify_row_ok _ _ _ _ _ _ Hn E1) as [[->| ->] En]; [by left|]. cbn [bind].
  cbn [fst] in En. destruct v; [|by right..]. apply IH; [by rewrite En|done].
Qed.
End Checked.

(** ** The number of leaves during CreateProofTree *)
Lemma InitChildren_n p t x p' t' lc rc rl rr : P_InitChildren p t x = Ok (p', t', lc, rc, rl, rr) -> p_n p' = p_n p.
Proof.
  unfold P_InitChildren. intros E. do 6 (apply bind_inv in E as (? & _ & E)). apply Ok_inv in E. injection E as <- _ _ _ _ _.
  unfold alloc. repeat case_match; done.
Qed.
Lemma create_node_n n c x r : create_node n c x = Ok r -> p_n (c_p r.1) = p_n (c_p c).
Proof.
  unfold create_node. intros E. do 3 (apply bind_inv in E as (? & _ & E)). destruct (hd_is (c_computed c) _).
  - apply bind_inv in E as (t1 & _ & E). destruct (_ <? n); [by apply Ok_inv in E as <-|].
    apply bind_inv in E as ([[[[[p2 t2] lc] rc] rl] rr] & E1 & E). apply InitChildren_n in E1. apply Ok_inv in E as <-. exact E1.
  - apply bind_inv in E as (t1 & _ & E). destruct (v_cached _).
    + apply bind_inv in E as (i & _ & E). destruct (_ =? _); [destruct (c_hashes c); [done|]|]; by apply Ok_inv in E as <-.
    + destruct (c_hashes c); [by apply Ok_inv in E as <-|]. apply bind_inv in E as (i & _ & E). by apply Ok_inv in E as <-.
Qed.
Lemma create_row_n n xs : forall c next r, create_row n c xs next = Ok r -> p_n (c_p r.1) = p_n (c_p c).
Proof.
  induction xs as [|x xs IH]; intros c next r E; cbn [create_row] in E; [by apply Ok_inv in E as <-|].
  apply bind_inv in E as (r1 & E1 & E). apply create_node_n in E1. destruct r1.2; [|by apply Ok_inv in E as <-]. by rewrite (IH _ _ _ E).
Qed.
Lemma create_rows_n n k : forall c xs r, create_rows k n c xs = Ok r -> p_n (c_p r.1) = p_n (c_p c).
Proof.
  induction k as [|k IH]; intros c xs r E; cbn [create_rows] in E; [by apply Ok_inv in E as <-|].
  apply bind_inv in E as (cr & E0 & E). apply bind_inv in E as (r1 & E1 & E). apply create_row_n in E1.
  assert (E2 : p_n (c_p cr.1) = p_n (c_p c)).
  { destruct (c_computed c); [by apply Ok_inv in E0 as <-|]. apply bind_inv in E0 as (hr & _ & E0). destruct hr; [|by apply Ok_inv in E0 as <-].
    apply bind_inv in E0 as (rp & _ & E0). destruct (_ =? rp); [|by apply Ok_inv in E0 as <-].
    do 4 (apply bind_inv in E0 as (? & _ & E0)). by apply Ok_inv in E0 as <-. }
  rewrite <- E2, <- E1. destruct r1.2; [|by apply Ok_inv in E as <-]. by apply (IH _ _ _ E).
Qed.
Lemma CreateProofTree_n p bp p1 t1 rec xs ok : P_CreateProofTree p bp = Ok (p1, t1, rec, xs, ok) -> p_n p1 = p_n p.
Proof.
  unfold P_CreateProofTree. intros E. apply bind_inv in E as (pp & _ & E). apply bind_inv in E as (r & E1 & E). apply create_rows_n in E1. cbn [c_p] in E1.
  rewrite <- E1. destruct r.2; apply Ok_inv in E; by injection E as <- _ _ _ _.
Qed.

(** ** Verify *)
Lemma VP_Verify_stops H p bp ths r : p_n p <= 2 ^ 62 -> P_Verify H p bp ths = Ok r -> VP_Verify H p bp ths = Ok r \/ VP_Verify H p bp ths = Abort.
Proof.
  intros Hn E. enough (stops_or (VP_Verify H p bp ths) (Ok r)) as [->| ->] by auto.
  unfold P_Verify in E. unfold VP_Verify. destruct (negb _); [by right|].
  apply bind_inv in E as (sane & E0 & E). rewrite E0. cbn [bind]. destruct (negb sane); [by right|]. destruct (m_targets bp); [by right|].
  apply bind_inv in E as ([[[[p1 t1] rec] xs] ok] & E1 & E). rewrite E1. cbn [bind]. apply CreateProofTree_n in E1.
  eapply stops_or_bind; [|intros v _ E'; right; exact E'|exact E].
  destruct ok; [|by right]. apply bind_inv in E as (v & E2 & _). rewrite E2. apply V_verify_rows_ok; [by rewrite E1|done].
Qed.
Lemma VP_Verify_synced H f p bp ths r : synced H f p -> P_Verify H p bp ths = Ok r -> VP_Verify H p bp ths = Ok r \/ VP_Verify H p bp ths = Abort.
Proof.
  intros Hs. apply VP_Verify_stops. destruct (synced_inv H f p Hs) as (us & ls & Hr & Hh & Hb & HP). destruct HP as [-> _].
  apply N.lt_le_incl. etransitivity; [exact Hb|]. done.
Qed.

(** ** The check that fails: two leaves, the second one remembered; a rejected
    proof marks the first one (C29), then the second one is deleted. *)
Definition adds55 : list leaf := [(13, false)].
Definition run55 (H : hash -> hash -> hash) : res (bool * bool * bool * bool * bool * bool * bool * res unit) :=
  let* f := F_Modify H (RamForest_new 0) adds29 [] in
  let* p := P_Modify H (Pollard_new 0) adds29 [] in
  let* v := P_Verify H p.2 bp29 [10; 12] in
  let* q := F_Prove f.2 [11] in
  match q with
  | None => Abort
  | Some bp =>
      let* w := P_Verify H v.2 bp [11] in
      let* p2 := P_Modify H w.2 adds55 [1] in
      let* f2 := F_Modify H f.2 adds55 [1] in
      let* a := F_Prove f2.2 [10] in
      match a with
      | None => Abort
      | Some pf =>
          let* x := P_Verify H p2.2 pf [10] in
          Ok (f.1, p.1, v.1, w.1, p2.1, f2.1, x.1, let* _ := VP_Verify H p2.2 pf [10] in Ok ())
      end
  end.
Lemma run55_ok : run55 ex_H = Ok (true, true, false, true, true, true, true, Abort).
Proof. vm_compute. reflexivity. Qed.
Lemma run55_inv H : run55 H = Ok (true, true, false, true, true, true, true, Abort) -> exists f p v bp w p2 f2 pf x,
  F_Modify H (RamForest_new 0) adds29 [] = Ok (true, f) /\ P_Modify H (Pollard_new 0) adds29 [] = Ok (true, p) /\
  P_Verify H p bp29 [10; 12] = Ok (false, v) /\ F_Prove f [11] = Ok (Some bp) /\ P_Verify H v bp [11] = Ok (true, w) /\
  P_Modify H w adds55 [1] = Ok (true, p2) /\ F_Modify H f adds55 [1] = Ok (true, f2) /\ F_Prove f2 [10] = Ok (Some pf) /\
  P_Verify H p2 pf [10] = Ok (true, x) /\ VP_Verify H p2 pf [10] = Abort.
Proof.
  unfold run55. intros E.
  apply bind_ok in E as ([b1 f] & E1 & E). apply bind_ok in E as ([b2 p] & E2 & E). cbn [fst snd] in E.
  apply bind_ok in E as ([b3 v] & E3 & E). cbn [fst snd] in E. apply bind_ok in E as ([bp|] & E4 & E); [|done].
  apply bind_ok in E as ([b4 w] & E5 & E). cbn [fst snd] in E. apply bind_ok in E as ([b5 p2] & E6 & E).
  apply bind_ok in E as ([b6 f2] & E7 & E). cbn [fst snd] in E. apply bind_ok in E as ([pf|] & E8 & E); [|done].
  apply bind_ok in E as ([b7 x] & E9 & E). cbn [fst snd] in E.
  assert (b1 = true /\ b2 = true /\ b3 = false /\ b4 = true /\ b5 = true /\ b6 = true /\ b7 = true /\ (let* _ := VP_Verify H p2 pf [10] in Ok ()) = Abort)
    as (-> & -> & -> & -> & -> & -> & -> & Ea) by (split_and!; congruence).
  exists f, p, v, bp, w, p2, f2, pf, x. split; [exact E1|]. split; [exact E2|]. split; [exact E3|]. split; [exact E4|]. split; [exact E5|].
  split; [exact E6|]. split; [exact E7|]. split; [exact E8|]. split; [exact E9|]. destruct (VP_Verify H p2 pf [10]); done.
Qed.
Lemma C55_refuted_lem : exists H f p v bp w p2 f2 pf x,
  F_Modify H (RamForest_new 0) [(10, false); (11, true)] [] = Ok (true, f) /\ P_Modify H (Pollard_new 0) [(10, false); (11, true)] [] = Ok (true, p) /\
  P_Verify H p (BatchProof [0; 1] []) [10; 12] = Ok (false, v) /\ F_Prove f [11] = Ok (Some bp) /\ P_Verify H v bp [11] = Ok (true, w) /\
  P_Modify H w [(13, false)] [1] = Ok (true, p2) /\ F_Modify H f [(13, false)] [1] = Ok (true, f2) /\ F_Prove f2 [10] = Ok (Some pf) /\
  P_Verify H p2 pf [10] = Ok (true, x) /\ VP_Verify H p2 pf [10] = Abort.
Proof. exists ex_H. apply run55_inv, run55_ok. Qed.
