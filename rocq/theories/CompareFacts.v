(** * CompareFacts: comparing the position maps of a pollard and a forest (proofs) *)
From stdpp Require Import sorting.
From Verif Require Import Base StateModel CodecModel ForestModel PollardModel PosSpec MerkleSpec AddFacts ForestSpec HistFacts ProofSpec PollardSpec PollardHist ForestMore PollardKeys FullSpec FullFacts
  TargetFacts PosFacts ForestExamples PollardExamples SwapFacts.

Section Compare.
Context (H : hash -> hash -> hash).

Lemma compare_pollard_lem f p es : synced H f p -> iterates es (p_posmap p) ->
  exists b, ComparePositionMap es (f_posmap f) = Ok b /\
    (b = true <-> forall h x, p_posmap p !! h = Some x -> x < f_n f /\ F_GetLeaf f x = Ok h).
Proof.
  intros Hs Hi. destruct (synced_inv H f p Hs) as (us & ls & Hr & Hh & Hn & _). destruct (compare_lem es (p_posmap p) (f_posmap f) Hi) as (b & E & Hb).
  - intros h Hx. pose proof (synced_keys H f p Hs ls Hh h Hx) as [k Hk]%elem_of_list_lookup. destruct Hh as [Hfn Hg].
    assert (Hlt : N.of_nat k < size ls) by (apply lookup_lt_Some in Hk; unfold size; lia).
    exists (N.of_nat k). apply (C07_lem H f us _ _ Hr). rewrite Hfn. split; [done|]. rewrite (Hg _ Hlt). f_equal. apply (leaf_at_lookup ls (N.of_nat k) h). by rewrite Nat2N.id.
  - exists b. split; [done|]. rewrite Hb. split; intros Hx h x Ex; [apply (C07_lem H f us _ _ Hr)|apply (C07_lem H f us _ _ Hr)]; by apply Hx.
Qed.
Lemma compare_full_lem f p es : full_history H f p -> iterates es (p_posmap p) ->
  ComparePositionMap es (f_posmap f) = Ok true /\ iterates es (f_posmap f) /\ ComparePositionMap es (p_posmap p) = Ok true.
Proof.
  intros Hf Hi. rewrite <- (C70_posmap_lem H f p Hf). destruct (compare_lem es (p_posmap p) (p_posmap p) Hi) as (b & E & Hb); [done|].
  rewrite E. destruct Hb as [_ Hb]. rewrite Hb by done. done.
Qed.
End Compare.

(** ** Example *)
Definition run72 (H : hash -> hash -> hash) : res (bool * option N * bool) :=
  let* bp := F_Prove (RamForest_new 0) [] in
  match bp with
  | None => UB
  | Some bp =>
      let* v := P_Verify H (Pollard_new 0) bp [] in
      let* p := P_Modify H v.2 adds71 [] in
      Ok (p.1, p_posmap p.2 !! 15, true)
  end.
Lemma run72_ok H : run72 H = Ok (true, Some 5, true).
Proof. vm_compute. reflexivity. Qed.
Lemma run72_inv H : run72 H = Ok (true, Some 5, true) -> exists bp v p, F_Prove (RamForest_new 0) [] = Ok (Some bp) /\
  P_Verify H (Pollard_new 0) bp [] = Ok v /\ P_Modify H v.2 adds71 [] = Ok (true, p) /\ p_posmap p !! 15 = Some 5.
Proof.
  unfold run72. intros E. apply bind_ok in E as ([bp|] & E1 & E); [|discriminate E]. apply bind_ok in E as (v & E2 & E). apply bind_ok in E as ([b p] & E3 & E).
  cbn [fst snd] in *. injection E as -> E4. exists bp, v, p. split; [exact E1|]. split; [exact E2|]. split; [exact E3|exact E4].
Qed.
Lemma ex_compare_pollard H : exists f p es, synced H f p /\ iterates es (p_posmap p) /\ (15, 5) ∈ es.
Proof.
  destruct (run72_inv H (run72_ok H)) as (bp & v & p & E1 & E2 & E3 & E4).
  destruct (sync_step H (RamForest_new 0) (Pollard_new 0) [] adds71 []) as (bp0 & v0 & f & p0 & EB & _ & EV & _ & _ & EP & Hs & Hh).
  - constructor.
  - split; [done|]. intros i Hi. change (size (@nil N)) with 0 in Hi. lia.
  - done.
  - apply valid_nil.
  - apply (bool_decide_unpack _). by vm_compute.
  - change (leaf_at [] <$> []) with (@nil N) in EB, EV. rewrite E1 in EB. injection EB as <-. rewrite E2 in EV. injection EV as ->. cbn [snd] in E3. rewrite E3 in EP. injection EP as <-.
    exists f, p, (map_to_list (p_posmap p)). split; [exact Hs|]. split; [apply Permutation_refl|]. apply elem_of_map_to_list. exact E4.
Qed.
