(** * FuzzBig: the fuzz target forest_state on any number of leaves (proofs) *)
From Verif Require Import Base StateModel CodecModel ForestModel PollardModel FuzzModel PosSpec PosFacts CodecSpec TotalFacts FuzzFacts.
From Coq Require Import ZifyBool ZifyNat ZifyN.
Ltac Zify.zify_post_hook ::= idtac.

(** Returns or is undefined, but nothing else. *)
Definition oku {A} (m : res A) : Prop := m = UB \/ is_ok m.
Lemma oku_Ok {A} (a : A) : oku (Ok a). Proof. right. apply is_ok_Ok. Qed.
Lemma oku_UB {A} : oku (@UB A). Proof. by left. Qed.
Lemma oku_bind {A B} (m : res A) (k : A -> res B) : oku m -> (forall a, m = Ok a -> oku (k a)) -> oku (bind m k).
Proof. intros [->|(a & Ha)] Hk; [by left|]. rewrite Ha. exact (Hk a Ha). Qed.
Lemma oku_if {A} (b : bool) (x y : res A) : oku x -> oku y -> oku (if b then x else y).
Proof. by destruct b. Qed.
Ltac oku := repeat first [apply oku_Ok | apply oku_UB | apply oku_bind; [|intros ? ?] | apply oku_if].
Lemma shl64_oku x k : oku (shl64 x k).
Proof. unfold shl64. oku. Qed.
Lemma shr64_oku x k : oku (shr64 x k).
Proof. unfold shr64. oku. Qed.
Lemma int_sub_oku a b : oku (int_sub a b).
Proof. unfold int_sub. oku. Qed.
Lemma Parent_oku n pos : oku (Parent n pos).
Proof. unfold Parent. oku. Qed.
Lemma HasRoot_oku n row : oku (HasRoot n row).
Proof. unfold HasRoot. oku. Qed.
Lemma root_position_oku row m R : oku (root_position row m R).
Proof. unfold root_position. oku. Qed.
Lemma pp_strip_oku n row ts : oku (pp_strip_root n row ts).
Proof. unfold pp_strip_root. oku; destruct (last ts); oku. Qed.
Lemma pp_case_oku n ts : ts <> [] -> pp_case n ts = UB \/ exists pr nx k, pp_case n ts = Ok (pr, nx, k) /\ (1 <= k)%nat.
Proof.
  intros Hts. unfold pp_case.
  assert (HP : forall pos, Parent n pos = UB \/ exists q, Parent n pos = Ok q) by apply Parent_oku.
  destruct ts as [|t0 [|t1 [|t2 [|t3 ts]]]]; [done|..];
    repeat match goal with
      | |- context [if ?b then _ else _] => destruct b
      | |- context [Parent n ?t] => destruct (HP t) as [E|(? & E)]; rewrite E; clear E; cbn [bind]
      end; first [by left | right; do 3 eexists; (split; [reflexivity|lia])].
Qed.
Lemma pp_scan_oku n fuel : forall ts, (length ts <= fuel)%nat -> oku (pp_scan fuel n ts).
Proof.
  induction fuel as [|fuel IH]; intros ts Hl; (destruct ts as [|t ts]; cbn [pp_scan]; [apply oku_Ok|]); [cbn in Hl; lia|].
  destruct (pp_case_oku n (t :: ts)) as [E|(pr & nx & k & E & Hk)]; [done| |]; rewrite E; cbn [bind]; [apply oku_UB|].
  oku. apply IH. rewrite drop_length. cbn [length] in *. lia.
Qed.
Lemma pp_rows_oku n k : forall row ts, oku (pp_rows k row n ts).
Proof.
  induction k as [|k IH]; intros row ts; cbn [pp_rows]; [apply oku_Ok|].
  apply oku_bind; [apply pp_strip_oku|]. intros ts' _. apply oku_bind; [by apply pp_scan_oku|]. intros r _. apply oku_bind; [apply IH|]. intros r' _. apply oku_Ok.
Qed.

(** ** More than 2^63 leaves *)
Lemma rows64 n : 2 ^ 63 < n -> n < two64 -> NumRows n = 64.
Proof.
  intros H1 H2. assert (n <= 2 ^ 64) as E%NumRows_le by (unfold two64 in H2; lia). apply NumRows_gt in H1. lia.
Qed.
Lemma pp_rows_64 n k : forall row ts, row + N.of_nat k = 65 -> (1 <= k)%nat -> pp_rows k row n ts = UB.
Proof.
  induction k as [|k IH]; intros row ts Hk H1; [lia|]. cbn [pp_rows].
  destruct (decide (k = 0%nat)) as [->|Hk0].
  - assert (row = 64) as -> by lia. done.
  - destruct (pp_strip_oku n row ts) as [E|(ts' & E)]; rewrite E; [done|]. cbn [bind].
    destruct (pp_scan_oku n (length ts') ts' ltac:(lia)) as [E'|(r & E')]; rewrite E'; [done|]. cbn [bind].
    rewrite IH by lia. done.
Qed.
Lemma ProofPositions_64 n ts : 2 ^ 63 < n -> n < two64 -> ProofPositions n ts = UB.
Proof. intros H1 H2. unfold ProofPositions. rewrite rows64 by done. apply pp_rows_64; lia. Qed.
Lemma RootPositions_64 n : 2 ^ 63 < n -> n < two64 -> RootPositions n = Ok [].
Proof. intros H1 H2. unfold RootPositions, RootPositionsFor. by rewrite rows64. Qed.

(** ** More than 2^62 leaves *)
Lemma rows63 n : 2 ^ 62 < n -> n <= 2 ^ 63 -> NumRows n = 63.
Proof. intros H1 H2. apply NumRows_le in H2. apply NumRows_gt in H1. lia. Qed.
Lemma root_position_0 m : root_position 0 m 63 = UB.
Proof. reflexivity. Qed.
Lemma root_position_63 m : root_position 63 m 63 = UB.
Proof. reflexivity. Qed.
Lemma root_position_mid row m : 1 <= row -> row <= 62 -> is_ok (root_position row m 63).
Proof.
  intros H1 H2. unfold root_position. okstep; [apply shl64_is_ok; lia|].
  okstep; [apply shl64_is_ok; lia|]. okstep; [apply shr64_is_ok; lia|]. okstep; [apply int_sub_is_ok; lia|].
  match goal with E : int_sub _ _ = Ok _ |- _ => apply int_sub_inv in E; subst end.
  okstep; [apply shl64_is_ok; lia|]. okstep.
Qed.
Lemma HasRoot_bit n row : row < 64 -> HasRoot n row = Ok (N.testbit n row).
Proof.
  intros Hr. unfold HasRoot. rewrite shr64_ok by done. cbn [bind]. f_equal. rewrite <- N.shiftr_div_pow2.
  assert (E : N.testbit n row = N.odd (N.shiftr n row)) by (rewrite <- N.bit0_odd, N.shiftr_spec by lia; f_equal; lia). rewrite E.
  change 1 with (N.ones 1) at 1. rewrite N.land_ones. change (2 ^ 1) with 2. rewrite <- N.bit0_mod, N.bit0_odd. by destruct (N.odd (N.shiftr n row)).
Qed.
Lemma from_63 n k : (k <= 62)%nat ->
  (N.odd n = true -> root_positions_from k n 63 = UB) /\ (N.odd n = false -> is_ok (root_positions_from k n 63)).
Proof.
  induction k as [|k IH]; intros Hk; cbn [root_positions_from]; rewrite HasRoot_bit by lia; cbn [bind].
  - change (N.of_nat 0) with 0. rewrite N.bit0_odd. destruct (N.odd n); split; intros E; try done. apply is_ok_Ok.
  - destruct (IH ltac:(lia)) as [I1 I2]. destruct (root_position_mid (N.of_nat (S k)) n ltac:(lia) ltac:(lia)) as (q & Eq).
    split; intros E.
    + rewrite (I1 E). destruct (N.testbit n _); [rewrite Eq|]; done.
    + destruct (I2 E) as (l & ->). destruct (N.testbit n _); [rewrite Eq|]; apply is_ok_Ok.
Qed.
Lemma top_bit n : 2 ^ 62 < n -> n <= 2 ^ 63 -> N.testbit n 63 = bool_decide (n = 2 ^ 63).
Proof.
  intros H1 H2. destruct (bool_decide_reflect (n = 2 ^ 63)) as [->|Hne]; [by vm_compute|].
  destruct (N.testbit n 63) eqn:E; [|done]. rewrite N.testbit_eqb in E. rewrite N.div_small in E by lia. done.
Qed.
Lemma RootPositions_63 n : 2 ^ 62 < n -> n <= 2 ^ 63 ->
  (N.odd n = true \/ n = 2 ^ 63 -> RootPositions n = UB) /\ (N.odd n = false -> n <> 2 ^ 63 -> is_ok (RootPositions n)).
Proof.
  intros H1 H2. unfold RootPositions, RootPositionsFor. rewrite rows63 by done. change (63 <? 64) with true. cbv iota.
  change (N.to_nat 63) with (S 62). remember 62%nat as k eqn:Ek. cbn [root_positions_from]. replace (N.of_nat (S k)) with 63 by lia.
  rewrite HasRoot_bit by done. cbn [bind]. rewrite top_bit by done. destruct (from_63 n k ltac:(lia)) as [I1 I2].
  destruct (bool_decide_reflect (n = 2 ^ 63)) as [->|Hne]; [split; [done|by intros _ []]|]. split.
  - intros [E|?]; [|done]. by rewrite (I1 E).
  - intros E _. destruct (I2 E) as (l & ->). apply is_ok_Ok.
Qed.
Lemma pp_rows_nil n k : forall row, row + N.of_nat k <= 64 -> pp_rows k row n [] = Ok ([], []).
Proof.
  induction k as [|k IH]; intros row Hk; [done|]. cbn [pp_rows]. unfold pp_strip_root. rewrite HasRoot_bit by lia. cbn [bind].
  destruct (N.testbit n row); cbn [last bind length pp_scan snd fst]; rewrite IH by lia; done.
Qed.
Lemma body_nil n : 2 ^ 62 < n -> n <= 2 ^ 63 -> fuzz_state_body n [] = Ok tt.
Proof.
  intros H1 H2. unfold fuzz_state_body. change (sortN []) with (@nil N). unfold ProofPositions, UndoTransform, Transform. rewrite !rows63 by done.
  rewrite pp_rows_nil by lia. reflexivity.
Qed.
Lemma sortN_nonempty ts : ts <> [] -> exists t ts', sortN ts = t :: ts'.
Proof.
  intros Hts. destruct (sortN ts) as [|t ts'] eqn:E; [|by eauto]. destruct Hts.
  destruct ts as [|x ts]; [done|]. cbn [sortN foldr] in E. destruct (foldr insert_sorted [] ts); cbn in E; [done|]. by destruct (_ <=? _).
Qed.
Lemma body_some n ts : 2 ^ 62 < n -> n <= 2 ^ 63 -> ts <> [] -> fuzz_state_body n ts = UB.
Proof.
  intros H1 H2 Hts. destruct (sortN_nonempty ts Hts) as (t & ts' & E). unfold fuzz_state_body. rewrite E.
  destruct (pp_rows_oku n (S (N.to_nat (NumRows n))) 0 (t :: ts')) as [Ep|(r & Ep)]; unfold ProofPositions; rewrite Ep; [done|]. cbn [bind].
  unfold Transform. rewrite rows63 by done. change (N.to_nat 63) with (S 62). generalize 62%nat. intros k. cbn [transform_rows]. rewrite HasRoot_bit by done. cbn [bind].
  unfold RootPosition. rewrite rows63 by done. rewrite root_position_0. done.
Qed.

(** ** The target *)
Lemma le_value_lt l : byte_string l -> le_value l < 256 ^ size l.
Proof.
  induction l as [|b l IH]; intros Hl; [done|]. apply Forall_cons in Hl as [Hb Hl]. cbn [le_value]. specialize (IH Hl). unfold size in *. cbn [length].
  rewrite Nat2N.inj_succ, N.pow_succ_r'. nia.
Qed.
Lemma consume_many_length k : forall len data, length (consume_many k len data) = len.
Proof. induction len as [|len IH]; intros data; [done|]. cbn [consume_many length]. by rewrite IH. Qed.

Lemma fuzz_state_exact_lem data : byte_string data ->
  let n := le_value (take 8 data) in let m := le_value (take 2 (drop 8 data)) in
  let bad := (8 <= length data)%nat /\ 2 ^ 62 < n /\
    (n <= 2 ^ 63 /\ (N.odd n = true \/ n = 2 ^ 63) \/ (10 + 8 * N.to_nat m <= length data)%nat /\ (0 < m \/ 2 ^ 63 < n)) in
  (bad -> fuzz_forest_state data = UB) /\ (~ bad -> fuzz_forest_state data = Ok tt).
Proof.
  intros Hb n m bad. destruct (N.le_gt_cases n (2 ^ 62)) as [Hn|Hn].
  { split; [intros (_ & ? & _); lia|]. intros _. by apply fuzz_forest_state_ok. }
  unfold fuzz_forest_state, consume, consume_vec. fold n.
  destruct (Nat.ltb_spec (length data) 8) as [H8|H8]; [split; [intros (? & _); lia|done]|].
  assert (Hn64 : n < two64).
  { pose proof (le_value_lt (take 8 data) ltac:(by apply Forall_take)) as E. unfold size in E. rewrite take_length, Nat.min_l in E by lia. exact E. }
  rewrite drop_length. fold m.
  destruct (N.le_gt_cases n (2 ^ 63)) as [Hn3|Hn3].
  - destruct (RootPositions_63 n Hn Hn3) as [I1 I2]. destruct (N.odd n) eqn:Eo.
    { rewrite I1 by (by left). split; [done|]. intros Hbad. destruct Hbad. split; [done|]. split; [done|]. left. split; [done|by left]. }
    destruct (decide (n = 2 ^ 63)) as [E3|Hne].
    { rewrite I1 by (by right). split; [done|]. intros Hbad. destruct Hbad. split; [done|]. split; [done|]. left. split; [done|by right]. }
    destruct I2 as (rp & ->); [done|done|]. cbn [bind].
    assert (Ebad : bad <-> (10 + 8 * N.to_nat m <= length data)%nat /\ 0 < m).
    { unfold bad. split.
      - intros (_ & _ & [(_ & [?|?])|(? & [?|?])]); try done; lia.
      - intros (? & ?). split; [done|]. split; [done|]. right. split; [done|by left]. }
    rewrite Ebad. clear bad Ebad.
    destruct (Nat.ltb_spec (length data - 8) 2); [split; [intros (? & _); lia|done]|].
    rewrite drop_length, drop_length. destruct (Nat.ltb_spec (length data - 8 - 2) (8 * N.to_nat m)); [split; [intros (? & _); lia|done]|].
    destruct (N.eq_dec m 0) as [E0|E0].
    + rewrite E0. change (N.to_nat 0) with 0%nat. cbn [consume_many]. rewrite body_nil by done. split; [intros (_ & ?); lia|done].
    + rewrite body_some; [split; [done|intros Hx; destruct Hx; lia]|done|done|]. intros E. apply (f_equal length) in E. rewrite consume_many_length in E. cbn [length] in E. lia.
  - rewrite RootPositions_64 by done. cbn [bind].
    assert (Ebad : bad <-> (10 + 8 * N.to_nat m <= length data)%nat).
    { unfold bad. split.
      - intros (_ & _ & [(? & _)|(? & _)]); [lia|done].
      - intros ?. split; [done|]. split; [done|]. right. split; [done|by right]. }
    rewrite Ebad. clear bad Ebad.
    destruct (Nat.ltb_spec (length data - 8) 2); [split; [lia|done]|].
    rewrite drop_length, drop_length. destruct (Nat.ltb_spec (length data - 8 - 2) (8 * N.to_nat m)); [split; [lia|done]|].
    unfold fuzz_state_body. rewrite ProofPositions_64 by done. split; [done|lia].
Qed.
