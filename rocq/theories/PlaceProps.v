(** * PlaceProps: the positions the roots carry, in the words of the specification (proofs) *)
From stdpp Require Import sorting.
From Verif Require Import Base StateModel CodecModel ForestModel PollardModel PosSpec PosFacts PathFacts MerkleSpec TargetFacts ForestFacts RowFacts TransformFacts SpecFacts RemoveFacts
  ForestInv AddFacts ForestSpec HistFacts PosmapFacts PollardRep PollardInit PollardAdd PollardRemove PollardSpec PollardHist ProofSpec ProveFacts PollardProps ForestExamples PollardRefute PollardExamples
  PlaceSpec PlaceFacts PlacePollard.
From Coq Require Import ZifyBool ZifyNat ZifyN.
Ltac Zify.zify_post_hook ::= idtac.

(** ** The height matters *)
Lemma slots_mono R R' r : R < R' -> slots_below R (S r) < slots_below R' (S r).
Proof.
  intros Hlt. induction r as [|r IH].
  - cbn [slots_below]. change (N.of_nat 0) with 0. rewrite !N.sub_0_r. apply N.add_lt_mono_l, N.pow_lt_mono_r; lia.
  - remember (S r) as k eqn:Ek. clear Ek. cbn [slots_below]. apply N.add_lt_le_mono; [done|]. apply N.pow_le_mono_r; lia.
Qed.
Lemma place_height R R' n : 2 <= n -> place R n = place R' n -> R = R'.
Proof.
  intros Hn E. assert (Hb : N.testbit n (N.log2 n) = true) by (apply N.bit_log2; lia). assert (Hl : 1 <= N.log2 n) by (apply N.log2_le_pow2; [lia|done]).
  pose proof (testbit_le_rows n _ Hb) as Hle. assert (Hin : N.log2 n ∈ root_rows (N.to_nat (NumRows n)) n) by (apply root_rows_elem; rewrite N2Nat.id; done).
  apply elem_of_list_lookup in Hin as [k Hk]. apply (f_equal (.!! k)) in E. rewrite !place_pl in E. unfold pl in E. rewrite !list_lookup_fmap, Hk in E. cbn [fmap option_fmap option_map] in E.
  injection E as E. unfold enc in E. destruct (N.to_nat (N.log2 n)) as [|r] eqn:Er; [lia|].
  destruct (N.lt_trichotomy R R') as [Hlt|[->|Hlt]]; [|done|]; apply (slots_mono _ _ r) in Hlt; lia.
Qed.

(** ** The forest *)
Section Forest.
Context (H : hash -> hash -> hash).
Lemma good_iff n R ps : is_height n R -> good n ps <-> placed n R ps \/ n = 2.
Proof. intros <-%NumRows_height. unfold good. by rewrite placed_place. Qed.

Lemma F_place_step f us (adds : list leaf) ts f' R R1 R' : reachable H f us -> f_n f + size adds < 2 ^ 31 + size ts ->
  F_Modify H f adds ts = Ok (true, f') \/ (exists u, F_ModifyUndo H f adds ts = Ok (true, u, f')) ->
  is_height (f_n f) R -> is_height (f_n f - size ts) R1 -> is_height (f_n f') R' ->
  ((ts = [] -> placed (f_n f) R (F_root_positions f) \/ f_n f = 2) /\ (R1 = R \/ f_n f <= size ts + 1)) \/ R1 <> R' ->
  placed (f_n f') R' (F_root_positions f') \/ f_n f' = 2.
Proof.
  intros Hr Hb E HR HR1 HR' Hc. destruct (C01_lem H f us Hr) as (ls & Hh & _). pose proof Hh as [Hfn _]. rewrite Hfn in Hb.
  destruct (F_Modify_pos H f us ls adds ts f' Hr Hh Hb E) as (_ & H1 & H2). apply (good_iff _ _ _ HR'). rewrite <- (good_iff _ _ _ HR) in Hc.
  apply NumRows_height in HR, HR1, HR'. subst R R1 R'. destruct Hc as [[Hg Hc]|Hc]; auto.
Qed.
Lemma F_place_deleted f us ts f' R R' : reachable H f us ->
  F_Modify H f [] ts = Ok (true, f') \/ (exists u, F_ModifyUndo H f [] ts = Ok (true, u, f')) -> ts <> [] -> is_height (f_n f) R -> is_height (f_n f') R' ->
  placed (f_n f') R (F_root_positions f') /\ (placed (f_n f') R' (F_root_positions f') <-> R' = R \/ f_n f' <= 1).
Proof.
  intros Hr E Hne HR HR'. destruct (C01_lem H f us Hr) as (ls & Hh & _). pose proof Hh as [Hfn _]. destruct (reachable_holds H f us ls Hr Hh) as (_ & Hn & _).
  destruct (F_Modify_pos H f us ls [] ts f' Hr Hh ltac:(change (size (@nil leaf)) with 0; lia) E) as (H1 & _). specialize (H1 Hne eq_refl).
  apply NumRows_height in HR, HR'. subst R R'. rewrite !placed_place, H1. split; [done|]. split.
  - intros Hp. destruct (N.le_gt_cases (f_n f') 1) as [|Hgt]; [by right|left]. symmetry. by apply (place_height _ _ (f_n f')); [lia|].
  - intros [->|Hs]; [done|]. by apply (place_small H).
Qed.
Lemma F_place_undo f u us f' R : reachable H f (u :: us) -> F_Undo H f u = Ok (true, f') -> is_height (f_n f') R -> placed (f_n f') R (F_root_positions f').
Proof. intros Hr E <-%NumRows_height. apply placed_place. by eapply F_Undo_pos. Qed.
Lemma F_place_restore bytes f R : F_Restore bytes = Ok f -> f_n f <= 2 ^ 62 -> is_height (f_n f) R -> placed (f_n f) R (F_root_positions f).
Proof. intros E Hn <-%NumRows_height. apply placed_place. by eapply F_Restore_pos. Qed.

(** ** The pollard *)
Lemma P_place_step f p bp ths v (adds : list leaf) p' R R1 R' : synced H f p -> verifies H f p bp ths true v -> f_n f + size adds < 2 ^ 31 + size (m_sorted_targets bp) ->
  P_Modify H v adds (m_sorted_targets bp) = Ok (true, p') -> let ts := m_sorted_targets bp in
  is_height (p_n v) R -> is_height (p_n v - size ts) R1 -> is_height (p_n p') R' ->
  ((ts = [] -> placed (p_n v) R (P_root_positions v) \/ p_n v = 2) /\ (R1 = R \/ p_n v <= size ts + 1)) \/ R1 <> R' ->
  placed (p_n p') R' (P_root_positions p') \/ p_n p' = 2.
Proof.
  intros Hs Hv Hb E ts HR HR1 HR' Hc. destruct (P_Modify_pos H f p bp ths v adds p' Hs Hv Hb E) as (_ & H1 & H2). apply (good_iff _ _ _ HR'). rewrite <- (good_iff _ _ _ HR) in Hc.
  apply NumRows_height in HR, HR1, HR'. subst R R1 R'. destruct Hc as [[Hg Hc]|Hc]; auto.
Qed.
Lemma P_place_deleted f p bp ths v p' R R' : synced H f p -> verifies H f p bp ths true v -> P_Modify H v [] (m_sorted_targets bp) = Ok (true, p') -> m_sorted_targets bp <> [] ->
  is_height (p_n v) R -> is_height (p_n p') R' ->
  placed (p_n p') R (P_root_positions p') /\ (placed (p_n p') R' (P_root_positions p') <-> R' = R \/ p_n p' <= 1).
Proof.
  intros Hs Hv E Hne HR HR'. destruct (synced_inv H f p Hs) as (us & ls & _ & [Hfn _] & Hn & _).
  destruct (P_Modify_pos H f p bp ths v [] p' Hs Hv ltac:(change (size (@nil leaf)) with 0; lia) E) as (H1 & _). specialize (H1 Hne eq_refl).
  apply NumRows_height in HR, HR'. subst R R'. rewrite !placed_place, H1. split; [done|]. split.
  - intros Hp. destruct (N.le_gt_cases (p_n p') 1) as [|Hgt]; [by right|left]. symmetry. by apply (place_height _ _ (p_n p')); [lia|].
  - intros [->|Hle]; [done|]. by apply (place_small H).
Qed.
Lemma P_place_verify p bp ths b p' R : p_n p <= 2 ^ 62 -> is_height (p_n p) R -> P_Verify H p bp ths = Ok (b, p') -> placed (p_n p) R (P_root_positions p) ->
  placed (p_n p) R (P_root_positions p').
Proof. intros Hn <-%NumRows_height E Hp%placed_place. apply placed_place. by eapply P_Verify_pos. Qed.
Lemma P_place_prune p p' : P_Prune p = Ok p' -> P_root_positions p' = P_root_positions p /\ p_n p' = p_n p.
Proof. exact (P_Prune_pos p p'). Qed.
Lemma P_place_restore hs n p R : Pollard_restore hs n = Ok p -> n <= 2 ^ 62 -> is_height n R -> placed n R (P_root_positions p).
Proof. intros E Hn <-%NumRows_height. apply placed_place. by eapply Pollard_restore_pos. Qed.
End Forest.

(** ** Concrete positions *)
Definition adds_of (b : bool) (hs : list hash) : list leaf := (λ h, (h, b)) <$> hs.
Definition run75 (H : hash -> hash -> hash) (a1 : list leaf) (ths : list hash) (a2 : list leaf) (ts : list N)
    : res (list bool * list N * (list N * list N * list N * list N * list N)) :=
  let* bp0 := F_Prove (RamForest_new 0) [] in
  match bp0 with
  | None => UB
  | Some bp0 =>
      let* v0 := P_Verify H (Pollard_new 0) bp0 [] in
      let* f := F_Modify H (RamForest_new 0) a1 [] in
      let* p := P_Modify H v0.2 a1 [] in
      let* bp := F_Prove f.2 ths in
      match bp with
      | None => UB
      | Some bp =>
          let* v := P_Verify H p.2 bp ths in
          let* f' := F_Modify H f.2 a2 ts in
          let* p' := P_Modify H v.2 a2 ts in
          Ok ([f.1; p.1; v.1; f'.1; p'.1], [f_n f.2; p_n v.2; f_n f'.2; p_n p'.2], (F_root_positions f.2, P_root_positions p.2, P_root_positions v.2, F_root_positions f'.2, P_root_positions p'.2))
      end
  end.
Lemma run75_inv H a1 ths a2 ts n1 n1' n2 n2' x1 x2 x3 x4 x5 : run75 H a1 ths a2 ts = Ok ([true; true; true; true; true], [n1; n1'; n2; n2'], (x1, x2, x3, x4, x5)) ->
  exists bp0 v0 f p bp v f' p', F_Prove (RamForest_new 0) [] = Ok (Some bp0) /\ P_Verify H (Pollard_new 0) bp0 [] = Ok v0 /\
    F_Modify H (RamForest_new 0) a1 [] = Ok (true, f) /\ P_Modify H v0.2 a1 [] = Ok (true, p) /\ F_Prove f ths = Ok (Some bp) /\ P_Verify H p bp ths = Ok (true, v) /\
    F_Modify H f a2 ts = Ok (true, f') /\ P_Modify H v a2 ts = Ok (true, p') /\ f_n f = n1 /\ p_n v = n1' /\ f_n f' = n2 /\ p_n p' = n2' /\
    F_root_positions f = x1 /\ P_root_positions p = x2 /\ P_root_positions v = x3 /\ F_root_positions f' = x4 /\ P_root_positions p' = x5.
Proof.
  unfold run75. intros E. apply bind_ok in E as ([bp0|] & E1 & E); [|discriminate E]. apply bind_ok in E as (v0 & E2 & E). apply bind_ok in E as ([b1 f] & E3 & E).
  apply bind_ok in E as ([b2 p] & E4 & E). apply bind_ok in E as ([bp|] & E5 & E); [|discriminate E]. apply bind_ok in E as ([b3 v] & E6 & E).
  apply bind_ok in E as ([b4 f'] & E7 & E). apply bind_ok in E as ([b5 p'] & E8 & E).
  cbn [fst snd] in *. injection E as -> -> -> -> -> Q1 Q2 Q3 Q4 Q5 Q6 Q7 Q8 Q9. exists bp0, v0, f, p, bp, v, f', p'.
  split; [exact E1|]. split; [exact E2|]. split; [exact E3|]. split; [exact E4|]. split; [exact E5|]. split; [exact E6|]. split; [exact E7|]. split; [exact E8|].
  split; [exact Q1|]. split; [exact Q2|]. split; [exact Q3|]. split; [exact Q4|]. split; [exact Q5|]. split; [exact Q6|]. split; [exact Q7|]. split; [exact Q8|exact Q9].
Qed.
(** Such a run is a history. *)
Lemma run75_hist a1 ths a2 ts n1 n1' n2 n2' x1 x2 x3 x4 x5 : run75 ex_H a1 ths a2 ts = Ok ([true; true; true; true; true], [n1; n1'; n2; n2'], (x1, x2, x3, x4, x5)) ->
  NoDup a1.*1 -> size a1 < 2 ^ 31 -> valid_targets (size a1.*1) ts -> leaf_at a1.*1 <$> ts = ths -> size a1.*1 + size a2 < 2 ^ 31 + size ts -> NoDup (spec_remove a1.*1 ts ++ a2.*1) ->
  exists f p bp v f' p', reachable ex_H f [] /\ synced ex_H f p /\ verifies ex_H f p bp ths true v /\ m_sorted_targets bp = ts /\
    F_Modify ex_H f a2 ts = Ok (true, f') /\ P_Modify ex_H v a2 ts = Ok (true, p') /\ reachable ex_H f' [] /\ synced ex_H f' p' /\
    f_n f = n1 /\ p_n v = n1' /\ f_n f' = n2 /\ p_n p' = n2' /\
    F_root_positions f = x1 /\ P_root_positions p = x2 /\ P_root_positions v = x3 /\ F_root_positions f' = x4 /\ P_root_positions p' = x5.
Proof.
  intros E Hnd Hs Hv Hths Hb Hnd2. destruct (run75_inv ex_H _ _ _ _ _ _ _ _ _ _ _ _ _ E) as (bp0 & v0 & f & p & bp & v & f' & p' & E1 & E2 & E3 & E4 & E5 & E6 & E7 & E8 & Q).
  destruct (sync_step ex_H (RamForest_new 0) (Pollard_new 0) [] a1 []) as (bp1 & v1 & f1 & p1 & EB & Hts0 & EV & Hv0 & EF & EP & Hsy & Hh).
  - constructor.
  - split; [done|]. intros i Hi. change (size (@nil N)) with 0 in Hi. lia.
  - change (size (@nil N)) with 0. lia.
  - apply valid_nil.
  - done.
  - change (leaf_at [] <$> []) with (@nil N) in EB, EV, Hv0. rewrite E1 in EB. injection EB as <-. rewrite E2 in EV. injection EV as ->. cbn [snd] in E4. rewrite E4 in EP. injection EP as <-.
    rewrite E3 in EF. injection EF as <-. change (holds_leaves f (a1.*1)) in Hh.
    destruct (sync_step ex_H f p (a1.*1) a2 ts Hsy Hh Hb Hv Hnd2) as (bp2 & v2 & f2 & p2 & EB2 & Ets & EV2 & Hv2 & EF2 & EP2 & Hs2 & Hh2).
    rewrite Hths in EB2, EV2, Hv2. rewrite E5 in EB2. injection EB2 as <-. rewrite E6 in EV2. injection EV2 as <-.
    rewrite E7 in EF2. injection EF2 as <-. rewrite E8 in EP2. injection EP2 as <-.
    assert (Hr : reachable ex_H f []). { eapply (reach_modify _ _ _ a1 [] f (reach_new ex_H)); [|exact E3]. change (f_n (RamForest_new 0)) with 0. change (size (@nil N)) with 0. lia. }
    exists f, p, bp, v, f', p'. split; [exact Hr|]. split; [exact Hsy|]. split; [exact Hv2|]. split; [exact Ets|]. split; [exact E7|]. split; [exact E8|].
    split; [|split; [exact Hs2|exact Q]]. eapply (reach_modify _ _ _ a2 ts f' Hr); [|exact E7]. destruct Hh as [-> _]. exact Hb.
Qed.
Lemma runA : run75 ex_H (adds_of true [10; 11; 12; 13; 14; 15; 16; 17]) [14; 15; 16; 17] [] [4; 5; 6; 7] = Ok ([true; true; true; true; true], [8; 8; 4; 4], ([14], [14], [14], [12], [12])).
Proof. vm_compute. reflexivity. Qed.
Lemma runB : run75 ex_H (adds_of true [10; 11; 12; 13; 14; 15; 16; 17]) [11] (adds_of false [20]) [1] = Ok ([true; true; true; true; true], [8; 8; 8; 8], ([14], [14], [14], [14], [14])).
Proof. vm_compute. reflexivity. Qed.
Lemma runC : run75 ex_H (adds_of true [10; 11]) [] [] [] = Ok ([true; true; true; true; true], [2; 2; 2; 2], ([1], [1], [1], [1], [1])).
Proof. vm_compute. reflexivity. Qed.
Ltac hist H0 := let E := fresh in pose proof (run75_hist _ _ _ _ _ _ _ _ _ _ _ _ _ H0) as E; apply E; first [apply (bool_decide_unpack _); by vm_compute|by vm_compute].
Lemma histA : exists f p bp v f' p', reachable ex_H f [] /\ synced ex_H f p /\ verifies ex_H f p bp [14; 15; 16; 17] true v /\ m_sorted_targets bp = [4; 5; 6; 7] /\
    F_Modify ex_H f [] [4; 5; 6; 7] = Ok (true, f') /\ P_Modify ex_H v [] [4; 5; 6; 7] = Ok (true, p') /\ reachable ex_H f' [] /\ synced ex_H f' p' /\
    f_n f = 8 /\ p_n v = 8 /\ f_n f' = 4 /\ p_n p' = 4 /\
    F_root_positions f = [14] /\ P_root_positions p = [14] /\ P_root_positions v = [14] /\ F_root_positions f' = [12] /\ P_root_positions p' = [12].
Proof. hist runA. Qed.
Lemma histB : exists f p bp v f' p', reachable ex_H f [] /\ synced ex_H f p /\ verifies ex_H f p bp [11] true v /\ m_sorted_targets bp = [1] /\
    F_Modify ex_H f [(20, false)] [1] = Ok (true, f') /\ P_Modify ex_H v [(20, false)] [1] = Ok (true, p') /\ reachable ex_H f' [] /\ synced ex_H f' p' /\
    f_n f = 8 /\ p_n v = 8 /\ f_n f' = 8 /\ p_n p' = 8 /\
    F_root_positions f = [14] /\ P_root_positions p = [14] /\ P_root_positions v = [14] /\ F_root_positions f' = [14] /\ P_root_positions p' = [14].
Proof. hist runB. Qed.
Lemma histC : exists f p bp v f' p', reachable ex_H f [] /\ synced ex_H f p /\ verifies ex_H f p bp [] true v /\ m_sorted_targets bp = [] /\
    F_Modify ex_H f [] [] = Ok (true, f') /\ P_Modify ex_H v [] [] = Ok (true, p') /\ reachable ex_H f' [] /\ synced ex_H f' p' /\
    f_n f = 2 /\ p_n v = 2 /\ f_n f' = 2 /\ p_n p' = 2 /\
    F_root_positions f = [1] /\ P_root_positions p = [1] /\ P_root_positions v = [1] /\ F_root_positions f' = [1] /\ P_root_positions p' = [1].
Proof. hist runC. Qed.
Lemma placed_2 : placed 2 1 [2].
Proof. apply placed_place. vm_compute. reflexivity. Qed.
Lemma placed_4 : placed 4 2 [6].
Proof. apply placed_place. vm_compute. reflexivity. Qed.
Lemma placed_8 : placed 8 3 [14].
Proof. apply placed_place. vm_compute. reflexivity. Qed.
Lemma placed_unique n R a b : placed n R a -> placed n R b -> a = b.
Proof. by intros ->%placed_place ->%placed_place. Qed.

Lemma refuted_two : exists (H : hash -> hash -> hash) f p, reachable H f [] /\ synced H f p /\ f_n f = 2 /\ F_root_positions f = [1] /\ P_root_positions p = [1] /\ is_height 2 1 /\ placed 2 1 [2].
Proof.
  destruct histC as (f & p & bp & v & f' & p' & Hr & Hs & _ & _ & _ & _ & _ & _ & En & _ & _ & _ & E1 & E2 & _). exists ex_H, f, p.
  split; [exact Hr|]. split; [exact Hs|]. split; [exact En|]. split; [exact E1|]. split; [exact E2|]. split; [by apply NumRows_height|exact placed_2].
Qed.
Lemma refuted_deleted : exists (H : hash -> hash -> hash) f p, reachable H f [] /\ synced H f p /\ f_n f = 4 /\ F_root_positions f = [12] /\ P_root_positions p = [12] /\ is_height 4 2 /\ placed 4 2 [6].
Proof.
  destruct histA as (f0 & p0 & bp & v & f & p & _ & _ & _ & _ & _ & _ & Hr & Hs & _ & _ & En & _ & _ & _ & _ & E1 & E2). exists ex_H, f, p.
  split; [exact Hr|]. split; [exact Hs|]. split; [exact En|]. split; [exact E1|]. split; [exact E2|]. split; [by apply NumRows_height|exact placed_4].
Qed.
Lemma heights_example : is_height 8 3 /\ is_height 7 3 /\ is_height 4 2 /\ placed 8 3 [14].
Proof. split; [by apply NumRows_height|]. split; [by apply NumRows_height|]. split; [by apply NumRows_height|exact placed_8]. Qed.
