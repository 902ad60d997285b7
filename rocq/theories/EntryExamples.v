(** * EntryExamples: a deletion after which one remembered leaf has the right position
    in the position map and another has a wrong one (proofs) *)
From stdpp Require Import sorting.
From Verif Require Import Base StateModel CodecModel ForestModel PollardModel PosSpec PosFacts PosmapFacts MerkleSpec TargetFacts ForestFacts RowFacts SpecFacts RemoveFacts ForestInv ForestSpec HistFacts
  ProofSpec ProveFacts PollardSpec EntrySpec PollardRemove PollardHist PollardProps PollardRecall ForestExamples PollardRefute PollardExamples EntryFacts.
Ltac Zify.zify_post_hook ::= idtac.

Definition ls73 : list hash := [10; 11; 12; 13; 14; 15; 16; 17].
Definition adds73 : list leaf := [(10, true); (11, false); (12, false); (13, false); (14, true); (15, false); (16, false); (17, false)].
Definition run73 (H : hash -> hash -> hash) : res (bool * bool * bool * bool * bool * list (option N) * option hash * option hash) :=
  let* bp0 := F_Prove (RamForest_new 0) [] in
  match bp0 with
  | None => UB
  | Some bp0 =>
      let* v0 := P_Verify H (Pollard_new 0) bp0 [] in
      let* f := F_Modify H (RamForest_new 0) adds73 [] in
      let* p := P_Modify H v0.2 adds73 [] in
      let* bp := F_Prove f.2 [11; 12] in
      match bp with
      | None => UB
      | Some bp =>
          let* v := P_Verify H p.2 bp [11; 12] in
          let* f' := F_Modify H f.2 [] [1; 2] in
          let* p' := P_Modify H v.2 [] [1; 2] in
          let* a := P_Read p'.2 4 in
          let* b := P_Read p'.2 0 in
          Ok (f.1, p.1, v.1, f'.1, p'.1, [p_posmap p.2 !! 10; p_posmap p.2 !! 14; f_posmap f'.2 !! 10; f_posmap f'.2 !! 14; f_posmap f.2 !! 10; f_posmap f.2 !! 14], a, b)
      end
  end.
Lemma run73_ok : run73 ex_H = Ok (true, true, true, true, true, [Some 0; Some 4; Some 4; Some 0; Some 0; Some 4], None, Some 14).
Proof. vm_compute. reflexivity. Qed.
Lemma run73_inv H : run73 H = Ok (true, true, true, true, true, [Some 0; Some 4; Some 4; Some 0; Some 0; Some 4], None, Some 14) ->
  exists bp0 v0 f p bp v f' p', F_Prove (RamForest_new 0) [] = Ok (Some bp0) /\ P_Verify H (Pollard_new 0) bp0 [] = Ok v0 /\
    F_Modify H (RamForest_new 0) adds73 [] = Ok (true, f) /\ P_Modify H v0.2 adds73 [] = Ok (true, p) /\ F_Prove f [11; 12] = Ok (Some bp) /\ P_Verify H p bp [11; 12] = Ok (true, v) /\
    F_Modify H f [] [1; 2] = Ok (true, f') /\ P_Modify H v [] [1; 2] = Ok (true, p') /\ P_Read p' 4 = Ok None /\ P_Read p' 0 = Ok (Some 14) /\
    p_posmap p !! 10 = Some 0 /\ p_posmap p !! 14 = Some 4 /\ f_posmap f' !! 10 = Some 4 /\ f_posmap f' !! 14 = Some 0 /\ f_posmap f !! 10 = Some 0 /\ f_posmap f !! 14 = Some 4.
Proof.
  unfold run73. intros E. apply bind_ok in E as ([bp0|] & E1 & E); [|discriminate E]. apply bind_ok in E as (v0 & E2 & E). apply bind_ok in E as ([b1 f] & E3 & E).
  apply bind_ok in E as ([b2 p] & E4 & E). apply bind_ok in E as ([bp|] & E5 & E); [|discriminate E]. apply bind_ok in E as ([b3 v] & E6 & E).
  apply bind_ok in E as ([b4 f'] & E7 & E). apply bind_ok in E as ([b5 p'] & E8 & E). apply bind_ok in E as (a & E9 & E). apply bind_ok in E as (b & E10 & E).
  cbn [fst snd] in *. injection E as -> -> -> -> -> Q1 Q2 Q3 Q4 Q5 Q6 -> ->. exists bp0, v0, f, p, bp, v, f', p'.
  split; [exact E1|]. split; [exact E2|]. split; [exact E3|]. split; [exact E4|]. split; [exact E5|]. split; [exact E6|]. split; [exact E7|]. split; [exact E8|]. split; [exact E9|]. split; [exact E10|].
  split; [exact Q1|]. split; [exact Q2|]. split; [exact Q3|]. split; [exact Q4|]. split; [exact Q5|exact Q6].
Qed.
Lemma sws73 : exists sws, Transform 8 [1; 2] = Ok sws /\ moved_by (first_row sws) 0 = 0.
Proof. eexists. split; [vm_compute; reflexivity|]. vm_compute. reflexivity. Qed.

Lemma ex_entry : exists f p bp v f' p' sws, recalls ex_H f p {[10; 14]} {[10; 14]} /\ holds_leaves f ls73 /\ verifies ex_H f p bp [11; 12] true v /\ m_sorted_targets bp = [1; 2] /\
  F_Modify ex_H f [] [1; 2] = Ok (true, f') /\ P_Modify ex_H v [] [1; 2] = Ok (true, p') /\ Transform (f_n f) [1; 2] = Ok sws /\
  f_posmap f !! 10 = Some 0 /\ p_posmap p !! 10 = Some 0 /\ f_posmap f' !! 10 = Some 4 /\ P_Read p' 4 = Ok None /\ moved_by (first_row sws) 0 = 0 /\
  f_posmap f !! 14 = Some 4 /\ p_posmap p !! 14 = Some 4 /\ f_posmap f' !! 14 = Some 0 /\ P_Read p' 0 = Ok (Some 14) /\
  recalls ex_H f' p' {[10; 14]} {[10; 14]} /\ followed ex_H 14 f' p'.
Proof.
  destruct (run73_inv ex_H run73_ok) as (bp0 & v0 & f & p & bp & v & f' & p' & E1 & E2 & E3 & E4 & E5 & E6 & E7 & E8 & E9 & E10 & Q1 & Q2 & Q3 & Q4 & Q5 & Q6).
  destruct (sync_step ex_H (RamForest_new 0) (Pollard_new 0) [] adds73 []) as (bp1 & v1 & f1 & p1 & EB & Hts0 & EV & Hv0 & EF & EP & Hs & Hh).
  - constructor.
  - split; [done|]. intros i Hi. change (size (@nil N)) with 0 in Hi. lia.
  - done.
  - apply valid_nil.
  - apply (bool_decide_unpack _). by vm_compute.
  - change (leaf_at [] <$> []) with (@nil N) in EB, EV, Hv0. rewrite E1 in EB. injection EB as <-. rewrite E2 in EV. injection EV as ->. cbn [snd] in E4. rewrite E4 in EP. injection EP as <-.
    rewrite E3 in EF. injection EF as <-. change (holds_leaves f ls73) in Hh.
    destruct (sync_step ex_H f p ls73 [] [1; 2] Hs Hh) as (bp2 & v2 & f2 & p2 & EB2 & Ets & EV2 & Hv2 & EF2 & EP2 & Hs2 & Hh2).
    + done.
    + apply (bool_decide_unpack _). by vm_compute.
    + apply (bool_decide_unpack _). by vm_compute.
    + change (leaf_at ls73 <$> [1; 2]) with [11; 12] in EB2, EV2, Hv2. rewrite E5 in EB2. injection EB2 as <-. rewrite E6 in EV2. injection EV2 as <-.
      rewrite E7 in EF2. injection EF2 as <-. rewrite E8 in EP2. injection EP2 as <-.
      destruct sws73 as (sws & Esw & Emv). pose proof Hh as [Hfn _]. change (size ls73) with 8 in Hfn.
      assert (Hr : recalls ex_H f p {[10; 14]} {[10; 14]}).
      { eapply recalls_eq; [eapply (rc_modify ex_H _ _ ∅ ∅ bp0 _ v1 adds73 f p); [constructor|exact Hv0| |by rewrite Hts0|by rewrite Hts0]; by rewrite Hts0| |];
          apply (bool_decide_unpack _); by vm_compute. }
      exists f, p, bp, v, f', p', sws. split; [exact Hr|]. split; [exact Hh|]. split; [exact Hv2|]. split; [exact Ets|]. split; [exact E7|]. split; [exact E8|].
      split; [rewrite Hfn; exact Esw|]. split; [exact Q5|]. split; [exact Q1|]. split; [exact Q3|]. split; [exact E9|]. split; [exact Emv|].
      split; [exact Q6|]. split; [exact Q2|]. split; [exact Q4|]. split; [exact E10|]. split.
      * eapply recalls_eq; [eapply (rc_modify ex_H f p _ _ bp _ v [] f' p'); [exact Hr|exact Hv2| |by rewrite Ets|by rewrite Ets]; by rewrite Hfn, Ets| |];
          apply (bool_decide_unpack _); by vm_compute.
      * assert (Hf0 : followed ex_H 14 f p).
        { eapply (fw_added ex_H 14 _ _ bp0 _ v1 adds73 f p); [constructor|exact Hv0|by rewrite Hts0|by rewrite Hts0|by rewrite Hts0|]. do 4 right. left. }
        eapply (fw_modify ex_H 14 f p bp _ v [] f' p' sws 4 0); [exact Hf0|exact Hv2|by rewrite Hfn, Ets|by rewrite Ets|by rewrite Ets|by rewrite Hfn, Ets|apply not_elem_of_nil|exact Q6|exact Q4|by left].
Qed.
