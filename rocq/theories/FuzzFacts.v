(** * FuzzFacts: the fuzz targets (proofs) *)
From stdpp Require Import sorting.
From Verif Require Import Base StateModel CodecModel ForestModel PollardModel FuzzModel PosSpec PosFacts MerkleSpec CodecSpec CodecFacts TargetFacts ForestFacts SpecFacts ForestInv ForestSpec CommitFacts
  HistFacts ProofSpec ProveFacts PollardSpec PollardRep PollardInit PollardHist PollardProps UniqueFacts TotalFacts ForestExamples PollardExamples.
From Coq Require Import ZifyBool ZifyNat ZifyN.
Ltac Zify.zify_post_hook ::= idtac.

(** ** batchproof *)
Lemma consume_many_1 len : forall data, (len <= length data)%nat -> consume_many 1 len data = take len data.
Proof.
  induction len as [|len IH]; intros data Hl; [done|]. destruct data as [|b data]; [cbn in Hl; lia|].
  cbn [consume_many take drop le_value firstn skipn]. rewrite (drop_0 data), IH by (cbn in Hl; lia). f_equal. change (b + 256 * 0 = b). lia.
Qed.
Lemma le_value_1 data : byte_string data -> (1 <= length data)%nat -> le_value (take 1 data) < 256.
Proof. intros Hb Hl. destruct data as [|b data]; [cbn in Hl; lia|]. change (b + 256 * 0 < 256). inversion_clear Hb. lia. Qed.

Lemma fuzz_batchproof_ok data : byte_string data -> fuzz_batchproof data = Ok tt.
Proof.
  intros Hb. unfold fuzz_batchproof, consume, consume_vec.
  destruct (Nat.ltb_spec (length data) 1) as [?|H1]; [done|].
  pose proof (le_value_1 data Hb H1) as Hx. remember (le_value (take 1 data)) as x eqn:Ex. clear Ex.
  assert (Hb1 : byte_string (drop 1 data)) by (by apply Forall_drop). remember (drop 1 data) as d1 eqn:E1. clear E1.
  destruct (Nat.ltb_spec (length d1) 1) as [?|H2]; [done|].
  pose proof (le_value_1 d1 Hb1 H2) as Hy. remember (le_value (take 1 d1)) as y eqn:Ey. clear Ey.
  assert (Hb2 : byte_string (drop 1 d1)) by (by apply Forall_drop). remember (drop 1 d1) as d2 eqn:E2. clear E2.
  remember (N.to_nat (8 + x * 4 + y * 32)) as len eqn:El. rewrite Nat.mul_1_l.
  destruct (Nat.ltb_spec (length d2) len) as [?|H3]; [done|]. rewrite consume_many_1 by done.
  destruct (bp_canonical BatchProofNull (take len d2)) as (b & p' & Eu & _ & Hs & _).
  { by apply Forall_take. }
  { unfold size. rewrite take_length. change (2 ^ 31) with 2147483648. lia. }
  rewrite Eu. cbn [bind fst snd]. destruct b; [|done]. rewrite (Hs eq_refl). cbn [bind].
  by rewrite (proj2 (vec_eqb_eq _ _) eq_refl).
Qed.

(** ** forest_state *)
Lemma fuzz_state_ok n ts : n <= 2 ^ 62 -> fuzz_state_body n ts = Ok tt.
Proof.
  intros Hn. unfold fuzz_state_body.
  destruct (ProofPositions_is_ok n Hn (sortN ts)) as (? & ->). cbn [bind].
  destruct (Transform_is_ok n Hn (sortN ts)) as (? & ->). cbn [bind].
  destruct (CheckTargetsSanity_is_ok n (sortN ts)) as (? & ->). cbn [bind].
  destruct (UndoTransform_is_ok n Hn (sortN ts)) as (? & ->). done.
Qed.
Lemma fuzz_forest_state_ok data : le_value (take 8 data) <= 2 ^ 62 -> fuzz_forest_state data = Ok tt.
Proof.
  intros Hn. unfold fuzz_forest_state, consume, consume_vec. remember (le_value (take 8 data)) as n eqn:En. clear En.
  destruct (length data <? 8)%nat; [done|]. destruct (RootPositions_total n Hn n) as (rp & E). fold (RootPositions n) in E. rewrite E. cbn [bind].
  destruct (_ <? 2)%nat; [done|]. destruct (_ <? _)%nat; [done|]. by apply fuzz_state_ok.
Qed.

(** ** pollard *)
Lemma SetHash_small i : i < 256 -> SetHash i = i * 256 ^ 31 + 255 * 256 ^ 27.
Proof.
  intros Hi. unfold SetHash. rewrite (N.div_small i 256), (N.div_small i 65536), (N.div_small i 16777216), (N.mod_small i 256) by lia.
  change (0 mod 256) with 0. change (replicate 27 0) with (repeat 0 27). cbn [repeat app]. unfold be_value. cbn [fold_left].
  change (256 ^ 31) with 452312848583266388373324160190187140051835877600158453279131187530910662656.
  change (256 ^ 27) with 105312291668557186697918027683670432318895095400549111254310977536. lia.
Qed.
Definition fuzz_ls (k : N) : list hash := SetHash <$> nseq 0 k.
Lemma fuzz_ls_size k : size (fuzz_ls k) = k.
Proof. unfold fuzz_ls, size. rewrite fmap_length, nseq_length. lia. Qed.
Lemma fuzz_ls_NoDup k : k <= 256 -> NoDup (fuzz_ls k).
Proof.
  intros Hk. apply NoDup_fmap_2_strong; [|apply nseq_NoDup]. intros x y Hx%nseq_elem Hy%nseq_elem. rewrite !SetHash_small by lia.
  generalize (255 * 256 ^ 27). intros c E. assert (256 ^ 31 <> 0) by done. nia.
Qed.
Lemma fuzz_ls_spec k : k <= 256 -> fuzz_ls k = (λ i, i * 256 ^ 31 + 255 * 256 ^ 27) <$> nseq 0 k.
Proof. intros Hk. apply list_fmap_ext. intros j x Hx%elem_of_list_lookup_2%nseq_elem. apply SetHash_small. lia. Qed.

Section Pollard.
Context (H : hash -> hash -> hash).

Lemma destroy_ok f us : reachable H f us -> destroy f = Ok tt.
Proof.
  intros Hr. destruct (reachable_inv H f us Hr) as (ls & Hi & Hn & _). unfold destroy.
  assert (Hm : 2 ^ 31 = int_max + 1) by done. rewrite (F_Commit_ok H f ls [] Hi) by lia. done.
Qed.

Lemma fuzz_leaves_ok stop cont : forall k i data acc,
  fuzz_leaves k i stop data acc cont = stop \/
  exists (adds : list leaf) data', adds.*1 = SetHash <$> nseq i (N.of_nat k) /\ fuzz_leaves k i stop data acc cont = cont (acc ++ adds) data'.
Proof.
  induction k as [|k IH]; intros i data acc; cbn [fuzz_leaves].
  - right. exists [], data. rewrite app_nil_r. done.
  - unfold consume_bool, consume. destruct (_ <? 1)%nat; [by left|].
    destruct (IH (i + 1) (drop 1 data) (acc ++ [(SetHash i, N.odd (le_value (take 1 data)))])) as [->|(adds & data' & Ea & ->)]; [by left|right].
    exists ((SetHash i, N.odd (le_value (take 1 data))) :: adds), data'. rewrite <- app_assoc. split; [|done].
    rewrite Nat2N.inj_succ, <- N.add_1_r, nseq_cons. cbn [fmap list_fmap]. by f_equal.
Qed.

Lemma fuzz_targets_ok f ls cont : holds_leaves f ls -> forall k i data acc, i + N.of_nat k <= size ls ->
  fuzz_targets f k i data acc cont = destroy f \/
  exists ts data', StronglySorted N.lt ts /\ Forall (λ t, i <= t < size ls) ts /\ fuzz_targets f k i data acc cont = cont (acc ++ (leaf_at ls <$> ts)) data'.
Proof.
  intros [Hfn Hg]. induction k as [|k IH]; intros i data acc Hk; cbn [fuzz_targets].
  - right. exists [], data. rewrite app_nil_r. split; [constructor|]. split; [constructor|done].
  - unfold consume_bool, consume. destruct (_ <? 1)%nat; [by left|]. destruct (N.odd _).
    + rewrite Hg by lia. cbn [bind].
      destruct (IH (i + 1) (drop 1 data) (acc ++ [leaf_at ls i])) as [->|(ts & data' & Hs & Hf & ->)]; [lia|by left|right].
      exists (i :: ts), data'. rewrite <- app_assoc. split; [|split; [|done]].
      * constructor; [done|]. eapply Forall_impl; [exact Hf|]. intros t Ht; cbn in Ht; lia.
      * constructor; [lia|]. eapply Forall_impl; [exact Hf|]. intros t Ht; cbn in Ht; lia.
    + cbn [bind]. rewrite app_nil_r. destruct (IH (i + 1) (drop 1 data) acc) as [->|(ts & data' & Hs & Hf & ->)]; [lia|by left|right].
      exists ts, data'. split; [done|]. split; [|done]. eapply Forall_impl; [exact Hf|]. intros t Ht; cbn in Ht; lia.
Qed.

Lemma remove_NoDup f us ls ts : reachable H f us -> holds_leaves f ls -> valid_targets (size ls) ts -> NoDup (spec_remove ls ts).
Proof.
  intros Hr Hh Hv. destruct (reachable_holds H f us ls Hr Hh) as (Hi & Hn & _).
  destruct (F_Modify_ok H f ls [] ts Hi Hn) as [(Hnd & _)|(_ & Ea & _)]; [change (size (@nil leaf)) with 0; lia|done| |].
  - by rewrite app_nil_r in Hnd.
  - destruct Hh as [Hfn _]. destruct (C05_lem H f us [] ts Hr) as (b & u & f' & E & _).
    + change (size (@nil leaf)) with 0. lia.
    + constructor.
    + intros h i Hx. by apply elem_of_nil in Hx.
    + rewrite E in Ea. discriminate Ea.
Qed.

Lemma fuzz_verify_ok f p ls ts bp ok : synced H f p -> holds_leaves f ls -> valid_targets (size ls) ts -> F_Prove f (leaf_at ls <$> ts) = Ok (Some bp) ->
  fuzz_verify H f p (leaf_at ls <$> ts) bp ok = Ok tt \/
  (exists r i, node (size ls) r i /\ nh H (leaf_at ls) (N.to_nat r) i = zero_hash) \/
  exists p', P_Verify H p (spoil bp) (leaf_at ls <$> ts) = Ok (true, p') /\ shows_collision H p' ls.
Proof.
  intros Hs Hh Hv EF. destruct (synced_holds H f p ls Hs Hh) as (us & Hr & Hn & HP & _). assert (H62 : 2 ^ 31 <= 2 ^ 62) by done.
  unfold fuzz_verify. destruct ((0 <? size (m_proof bp)) && negb ok) eqn:Ec.
  - apply andb_true_iff in Ec as [Hpos%N.ltb_lt _].
    assert (Hwf : proof_wf (spoil bp)) by done.
    pose proof (Verify_inv H p ls (spoil bp) (leaf_at ls <$> ts) HP Hn Hwf) as HV.
    destruct (P_Verify H p (spoil bp) (leaf_at ls <$> ts)) as [[b p']| | | |] eqn:E; cbn [wp] in HV; try done.
    + destruct b; cbn [bind fst snd negb assert_]; [right|left; by eapply destroy_ok].
      destruct (accepted_honest H f p (spoil bp) _ p' ls Hs Hh Hwf E) as [Hc|(q & Eq & _ & Hsub & _ & _ & Hho)]; [right; by exists p'|left].
      rewrite EF in Eq. injection Eq as <-. unfold spoil, BatchProof in Hsub. cbn [m_proof] in Hsub.
      destruct (m_proof bp) as [|h hs] eqn:Ebp; [change (size (@nil N)) with 0 in Hpos; lia|].
      apply sublist_full in Hsub; [|cbn [length]; lia]. injection Hsub as <-.
      destruct Hho as (ps & [_ Hps] & HF). apply Forall2_cons_inv_r in HF as (pos & ps' & (r & i & Hsl & Epos & Ez) & _ & ->).
      exists r, i. split; [|by rewrite <- Ez]. destruct (proj1 (Hps pos)) as (r' & i' & Hsl' & Epos' & Hnd); [by left|].
      rewrite Epos in Epos'. apply enc_inj in Epos' as [-> ->]; [|done..]. by eapply needed_node.
    + right. left. destruct HV as [_ (r & i & Hnd & Er & _)]. exists (N.of_nat r), i. rewrite Nat2N.id. assert (Hnode : node (size ls) (N.of_nat r) i) by (by eapply needed_node).
      split; [done|]. pose proof (PInv_stores H p ls HP ltac:(lia)) as Hst. symmetry. apply (Hst (NumRows (size ls)) r i); [by apply NumRows_height|done..].
  - left. assert (Hb : size ls + size (@nil leaf) < 2 ^ 31 + size ts) by (change (size (@nil leaf)) with 0; lia).
    assert (Hnd : NoDup (spec_remove ls ts ++ (@nil leaf).*1)) by (rewrite app_nil_r; by eapply remove_NoDup).
    destruct (sync_step H f p ls [] ts Hs Hh Hb Hv Hnd) as (bp' & v & f' & p' & EF' & Ets & EV & _ & EM & EP & Hs' & Hh').
    rewrite EF in EF'. injection EF' as <-. rewrite EV. cbn [bind fst snd assert_]. rewrite Ets.
    destruct (step_ok H f us ls [] ts Hr Hh Hb Hv Hnd) as (u & f2 & EM2 & EU & Hr2 & _). rewrite EM in EM2. injection EM2 as <-.
    rewrite EU. cbn [bind fst snd assert_]. rewrite EP. cbn [bind fst snd assert_].
    destruct (C25_lem H f' p' Hs') as [ER _]. rewrite ER. cbn [bind]. rewrite (proj2 (vec_eqb_eq _ _) eq_refl). cbn [assert_ bind].
    by eapply destroy_ok.
Qed.

Lemma verify_nothing : P_Verify H (Pollard_new 0) (BatchProof [] []) [] = Ok (true, Pollard_new 0).
Proof. vm_compute. reflexivity. Qed.
Lemma prove_nothing : F_Prove (RamForest_new 0) [] = Ok (Some (BatchProof [] [])).
Proof. vm_compute. reflexivity. Qed.

Lemma fuzz_pollard_ok data : fuzz_pollard H data = Ok tt \/
  exists k, k < 128 /\ ((exists r i, node k r i /\ nh H (leaf_at (fuzz_ls k)) (N.to_nat r) i = zero_hash) \/
    exists f p bp ths p', synced H f p /\ holds_leaves f (fuzz_ls k) /\ P_Verify H p bp ths = Ok (true, p') /\ shows_collision H p' (fuzz_ls k)).
Proof.
  unfold fuzz_pollard. assert (Hd0 : destroy (RamForest_new 0) = Ok tt) by (eapply destroy_ok; constructor).
  unfold consume at 1. destruct (length data <? 1)%nat; [by left|].
  assert (Hk : N.land (le_value (take 1 data)) 127 < 128).
  { change 127 with (N.ones 7). rewrite N.land_ones. by apply N.mod_lt. }
  remember (N.land (le_value (take 1 data)) 127) as k eqn:Ek. clear Ek. generalize (drop 1 data). clear data. intros data.
  match goal with |- fuzz_leaves _ _ _ _ _ ?c = _ \/ _ => destruct (fuzz_leaves_ok (destroy (RamForest_new 0)) c (N.to_nat k) 0 data []) as [->|(adds & data' & Ea & ->)]; [by left|] end.
  rewrite N2Nat.id in Ea. fold (fuzz_ls k) in Ea. rewrite app_nil_l.
  assert (Hsy : synced H (RamForest_new 0) (Pollard_new 0)) by constructor.
  assert (Hh0 : holds_leaves (RamForest_new 0) []) by (split; [done|]; intros i Hi; change (size (@nil N)) with 0 in Hi; lia).
  assert (Hsa : size adds = k) by (rewrite <- (fuzz_ls_size k), <- Ea; unfold size; by rewrite fmap_length).
  assert (Hb : size (@nil hash) + size adds < 2 ^ 31 + size (@nil N)).
  { change (size (@nil N)) with 0. unfold leaf in *. rewrite Hsa. change (2 ^ 31) with 2147483648. lia. }
  assert (Hnd : NoDup (spec_remove [] [] ++ adds.*1)) by (rewrite Ea; apply fuzz_ls_NoDup; lia).
  destruct (sync_step H _ _ [] adds [] Hsy Hh0 Hb (valid_nil _) Hnd) as (bp0 & v & f & p & EF & _ & EV & _ & EM & EP & Hs & Hh).
  destruct (step_ok H (RamForest_new 0) [] [] adds [] ltac:(constructor) Hh0 Hb (valid_nil _) Hnd) as (u & f2 & EM2 & EU & Hr & _).
  rewrite EM in EM2. injection EM2 as <-. cbn [fmap list_fmap] in EF, EV. rewrite prove_nothing in EF. injection EF as <-.
  rewrite verify_nothing in EV. injection EV as <-. rewrite EU. cbn [bind fst snd assert_]. rewrite EP. cbn [bind fst snd assert_].
  change (spec_remove [] [] ++ adds.*1) with (adds.*1) in Hh. rewrite Ea in Hh.
  match goal with |- fuzz_targets _ _ _ _ _ ?c = _ \/ _ => destruct (fuzz_targets_ok f (fuzz_ls k) c Hh (N.to_nat k) 0 data' []) as [->|(ts & data2 & Hss & Hlt & ->)] end.
  { rewrite fuzz_ls_size. lia. }
  { left. by eapply destroy_ok. }
  assert (Hv : valid_targets (size (fuzz_ls k)) ts) by (split; [done|]; eapply Forall_impl; [exact Hlt|]; intros t Ht; apply Ht).
  assert (Hsk : size (fuzz_ls k) = k) by apply fuzz_ls_size.
  assert (Hnd2 : NoDup (spec_remove (fuzz_ls k) ts ++ (@nil leaf).*1)) by (rewrite app_nil_r; by eapply remove_NoDup).
  destruct (sync_step H f p (fuzz_ls k) [] ts Hs Hh) as (bp & _ & _ & _ & EPr & _).
  { rewrite Hsk. change (size (@nil leaf)) with 0. change (2 ^ 31) with 2147483648. lia. }
  { done. }
  { done. }
  rewrite app_nil_l, EPr. cbn [bind]. unfold consume_bool, consume. destruct (_ <? 1)%nat; [left; by eapply destroy_ok|].
  destruct (fuzz_verify_ok f p (fuzz_ls k) ts bp (N.odd (le_value (take 1 data2))) Hs Hh Hv EPr) as [->|[(r & i & Hz)|(p' & E & Hc)]]; [by left| |].
  - right. exists k. split; [done|]. left. exists r, i. by rewrite Hsk in Hz.
  - right. exists k. split; [done|]. right. exists f, p, (spoil bp), (leaf_at (fuzz_ls k) <$> ts), p'. done.
Qed.
End Pollard.
