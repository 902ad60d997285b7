(** * CommitFacts: Commit and Restore (proofs) *)
From stdpp Require Import sorting.
From Verif Require Import Base StateModel CodecModel ForestModel PosSpec PosFacts PathFacts MerkleSpec CodecSpec CodecFacts ForestFacts
  RemoveFacts ForestInv AddFacts UndoFacts.
From Coq Require Import ZifyBool ZifyNat ZifyN.
Ltac Zify.zify_post_hook ::= idtac.
Ltac dlia := zify; Z.div_mod_to_equations; lia.

(** Row [r] as written. *)
Definition rowlist (g : nat -> N -> hash) (n : N) (r : nat) : list hash := g r <$> nseq 0 (n / 2 ^ N.of_nat r).
Lemma rowlist_size g n r : size (rowlist g n r) = n / 2 ^ N.of_nat r.
Proof. unfold rowlist, size. rewrite fmap_length, nseq_length. lia. Qed.
Lemma rowlist_total g n r i : i < n / 2 ^ N.of_nat r -> rowlist g n r !!! N.to_nat i = g r i.
Proof.
  intros Hi. apply list_lookup_total_correct. unfold rowlist. rewrite list_lookup_fmap, nseq_lookup by lia. cbn. f_equal. f_equal. lia.
Qed.

Lemma commit_rows_ok f n k : wide f n -> n <= int_max -> forall i, N.of_nat (i + k) < size (f_data f) ->
  commit_rows k (N.of_nat i) (n / 2 ^ N.of_nat i) (f_data f) = Ok (hash_bytes <$> concat (rowlist (G f) n <$> seq i (S k))).
Proof.
  intros Hw Hn. destruct Hw as [Hfn Hlen].
  assert (Hle : forall i, n / 2 ^ N.of_nat i <= n).
  { intros i. pose proof (pow_pos (N.of_nat i)). apply N.div_le_upper_bound; nia. }
  assert (Hrow : forall i, N.of_nat i < size (f_data f) ->
    mapM_ (vec_get (f_data f !!! i)) (nseq 0 (n / 2 ^ N.of_nat i)) = Ok (rowlist (G f) n i)).
  { intros i Hi. apply mapM_ok. intros x Hx%nseq_elem. destruct (Hlen i) as [Hl _]. rewrite vec_get_ok; [done|]. unfold len in Hl. lia. }
  induction k as [|k IH]; intros i Hi; cbn [commit_rows]; (rewrite vec_get_ok by lia); cbn [bind]; rewrite Nat2N.id;
    destruct (Hlen i) as [Hl _]; unfold len in Hl; (destruct (N.leb_spec (n / 2 ^ N.of_nat i) (size (f_data f !!! i))); [|lia]); cbn [assert_ bind];
    specialize (Hle i); (rewrite int_loop_ok by lia); cbn [bind]; (rewrite Hrow by lia); cbn [bind].
  - cbn [seq fmap list_fmap concat]. by rewrite app_nil_r.
  - replace (N.of_nat i + 1) with (N.of_nat (S i)) by lia. rewrite N.shiftr_div_pow2. change (2 ^ 1) with 2.
    assert (E : n / 2 ^ N.of_nat i / 2 = n / 2 ^ N.of_nat (S i)).
    { rewrite <- div_pow_S. f_equal. f_equal. lia. }
    rewrite E, IH by lia. cbn [bind].
    change (seq i (S (S k))) with (i :: seq (S i) (S k)). cbn [fmap list_fmap concat]. rewrite <- fmap_app. done.
Qed.

Lemma restore_row_ok (flag : bool) hs : forall fuel a c pos (m : gmap N N), fits 32 hs -> (length hs <= fuel)%nat -> pos + size hs < two64 ->
  restore_row fuel (a ++ (hs ≫= be 32) ++ c) (size a) (size hs) pos flag m =
    Ok (hs, if flag then add_pos m pos hs else m).
Proof.
  induction hs as [|h hs IH]; intros fuel a c pos m Hf Hfu H64.
  - destruct fuel; cbn [restore_row]; change (size (@nil N) =? 0) with true; cbn [add_pos]; by destruct flag.
  - assert (Hs : size (h :: hs) = size hs + 1) by (unfold size; cbn [length]; lia). rewrite Hs in *.
    destruct fuel as [|fuel]; [cbn [length] in Hfu; lia|]. cbn [restore_row].
    destruct (N.eqb_spec (size hs + 1) 0); [lia|]. inversion_clear Hf as [|? ? Hh Hf'].
    rewrite bind_be_cons, <- app_assoc. rewrite (rd_app read_hash 32); [|apply reader_hash|apply size_be]. cbn [bind].
    rewrite be_value_be by done. rewrite add64_small by lia. replace (size hs + 1 - 1) with (size hs) by lia.
    specialize (IH fuel (a ++ be 32 h) c (pos + 1) (if flag then <[h := pos]> m else m) Hf' ltac:(cbn [length] in Hfu; lia) ltac:(lia)).
    rewrite size_app, size_be, <- app_assoc in IH. change (N.of_nat 32) with 32 in IH. rewrite IH. cbn [bind fst snd].
    destruct flag; done.
Qed.

Lemma concat_seq_split {A} (g : nat -> list A) i k : concat (g <$> seq i (S k)) = g i ++ concat (g <$> seq (S i) k).
Proof. done. Qed.
Lemma bind_app_be k (xs ys : list N) : (xs ++ ys) ≫= be k = (xs ≫= be k) ++ (ys ≫= be k).
Proof. apply bind_app. Qed.

Lemma restore_rows_ok g n K : n <= 2 ^ 62 -> (forall r i, node n (N.of_nat r) i -> g r i < 256 ^ 32) -> n < 2 ^ N.of_nat K ->
  forall fuel row a c d (m : gmap N N), (row <= K)%nat -> (K - row < fuel)%nat -> size d = N.of_nat row + 1 ->
    (forall r, d !!! r = if (r <? row)%nat then rowlist g n r else []) ->
    m = (if (row =? 0)%nat then ∅ else add_pos ∅ 0 (rowlist g n 0)) ->
    exists row' d', restore_rows fuel (a ++ ((concat (rowlist g n <$> seq row (K - row))) ≫= be 32) ++ c) n (size a) (N.of_nat row) (n / 2 ^ N.of_nat row) d m
        = Ok (d', add_pos ∅ 0 (rowlist g n 0)) /\ n < 2 ^ N.of_nat row' /\ size d' = N.of_nat row' + 1 /\
      forall r, d' !!! r = rowlist g n r.
Proof.
  intros Hn Hg HK. pose proof (R62 _ Hn) as HR.
  assert (H64 : 2 ^ 62 < two64) by done.
  assert (Hle : forall i, n / 2 ^ N.of_nat i <= n).
  { intros i. pose proof (pow_pos (N.of_nat i)). apply N.div_le_upper_bound; nia. }
  induction fuel as [|fuel IH]; intros row a c d m Hrow Hfuel Hd Hdl Hm; [lia|]. cbn [restore_rows].
  destruct (N.eqb_spec (n / 2 ^ N.of_nat row) 0) as [E|E].
  - pose proof (pow_pos (N.of_nat row)) as HP. assert (Hlt : n < 2 ^ N.of_nat row).
    { revert E HP. generalize (2 ^ N.of_nat row). intros P E HP. destruct (N.lt_ge_cases n P); [done|].
      assert (1 <= n / P) by (apply N.div_le_lower_bound; lia). lia. }
    exists row, d. split; [|split; [done|split; [done|]]].
    + f_equal. f_equal. rewrite Hm. destruct row as [|row]; [|done]. cbn [Nat.eqb]. change (2 ^ N.of_nat 0) with 1 in Hlt.
      unfold rowlist. change (2 ^ N.of_nat 0) with 1. assert (n = 0) as -> by lia. done.
    + intros r. rewrite Hdl. destruct (Nat.ltb_spec r row) as [Hr|Hr]; [done|]. unfold rowlist.
      rewrite N.div_small; [done|]. assert (2 ^ N.of_nat row <= 2 ^ N.of_nat r) by (apply pow_mono; lia). lia.
  - assert (HrowK : (row < K)%nat).
    { destruct (decide (row < K)%nat); [done|]. assert (row = K) as -> by lia. rewrite N.div_small in E by done. done. }
    assert (HrR : N.of_nat row <= NumRows n).
    { destruct (N.le_gt_cases (N.of_nat row) (NumRows n)) as [|Hgt]; [done|]. destruct E. apply N.div_small.
      pose proof (NumRows_bound n). assert (2 ^ NumRows n < 2 ^ N.of_nat row) by (by apply pow_lt). lia. }
    rewrite RowOffsetRow_ok by done. cbn [bind].
    replace (K - row)%nat with (S (K - S row)) by lia. rewrite concat_seq_split, bind_app_be, <- app_assoc.
    remember (concat (rowlist g n <$> seq (S row) (K - S row)) ≫= be 32) as tl eqn:Etl.
    rewrite <- (rowlist_size g n row).
    assert (Hfits : fits 32 (rowlist g n row)).
    { unfold fits, rowlist. apply Forall_fmap, Forall_forall. intros i Hi%elem_of_list_In%elem_of_list_In%nseq_elem. unfold compose. apply Hg, node_iff. lia. }
    rewrite restore_row_ok.
    2: { done. }
    2: { rewrite !app_length. pose proof (bind_be_length 32 (rowlist g n row)) as Hbl. unfold size in Hbl. lia. }
    2: { rewrite rowlist_size. specialize (Hle row). pose proof (enc_lt (NumRows n) (N.of_nat row) 0 ltac:(split; [done|apply pow_pos])).
         assert (2 ^ (NumRows n + 1) <= 2 ^ 63) by (apply pow_mono; lia). assert (2 ^ 63 + 2 ^ 62 < two64) by done. lia. }
    cbn [bind fst snd]. rewrite vec_get_ok by lia. cbn [bind]. rewrite vec_set_ok by lia. cbn [bind]. rewrite Nat2N.id.
    rewrite rowlist_size, N.shiftr_div_pow2. change (2 ^ 1) with 2.
    assert (Ediv : n / 2 ^ N.of_nat row / 2 = n / 2 ^ N.of_nat (S row)).
    { rewrite <- div_pow_S. f_equal. f_equal. lia. }
    rewrite Ediv. rewrite (Hdl row). rewrite Nat.ltb_irrefl, app_nil_l.
    destruct (IH (S row) (a ++ (rowlist g n row ≫= be 32)) c (<[row := rowlist g n row]> d ++ [[]])
       (if n / 2 ^ N.of_nat row =? n then add_pos m (enc (NumRows n) (N.of_nat row) 0) (rowlist g n row) else m)) as (row' & d' & E' & Hr' & Hd' & Hdd').
    { lia. } { lia. }
    { rewrite CodecFacts.size_app, size_insert. unfold size at 2. cbn [length]. lia. }
    { intros r. destruct (decide (r < row + 1)%nat) as [Hr|Hr].
      - rewrite lookup_total_app_l by (rewrite insert_length; unfold size in Hd; lia).
        rewrite insert_total by lia. destruct (decide (r = row)) as [->|Hne].
        + destruct (Nat.ltb_spec row (S row)); [done|lia].
        + rewrite Hdl. destruct (Nat.ltb_spec r row), (Nat.ltb_spec r (S row)); done || lia.
      - destruct (Nat.ltb_spec r (S row)); [lia|]. rewrite lookup_total_app_r by (rewrite insert_length; unfold size in Hd; lia).
        rewrite insert_length. destruct (r - length d)%nat as [|x] eqn:Ex; [done|]. rewrite list_lookup_total_alt. by destruct x. }
    { cbn [Nat.eqb]. destruct row as [|row].
      - change (2 ^ N.of_nat 0) with 1. rewrite N.div_1_r, N.eqb_refl, Hm. cbn [Nat.eqb]. change (N.of_nat 0) with 0. by rewrite enc_0.
      - destruct (N.eqb_spec (n / 2 ^ N.of_nat (S row)) n) as [Eq|_]; [|by rewrite Hm].
        exfalso. rewrite pow_nat_S in Eq, E. pose proof (pow_pos (N.of_nat row)).
        assert (n / (2 * 2 ^ N.of_nat row) < n).
        { apply N.div_lt; [|lia]. destruct (N.eq_dec n 0) as [->|]; [|lia]. rewrite N.div_0_l in E by lia. done. }
        lia. }
    rewrite size_app, bind_be_length, rowlist_size, <- app_assoc in E'. change (N.of_nat 32) with 32 in E'.
    rewrite <- Etl in E'. exists row', d'. split; [|done].
    replace (N.of_nat row + 1) with (N.of_nat (S row)) by lia. exact E'.
Qed.

Section Commit.
Context (H : hash -> hash -> hash).

Lemma nh_fits ls : (forall a b, H a b < 256 ^ 32) -> Forall (λ h, h < 256 ^ 32) ls -> forall r i, node (size ls) (N.of_nat r) i ->
  nh H (leaf_at ls) r i < 256 ^ 32.
Proof.
  intros HH Hl r i Hi. destruct r as [|r]; cbn [nh]; [|done]. unfold node in Hi. change (2 ^ N.of_nat 0) with 1 in Hi.
  rewrite Forall_lookup in Hl. eapply (Hl (N.to_nat i)). apply leaf_at_lookup. split; [lia|done].
Qed.

Lemma F_Commit_ok f ls old : inv H f ls -> size ls <= int_max ->
  F_Commit f old = Ok (overwrite old (be 8 (size ls) ++ (concat (rowlist (G f) (size ls) <$> seq 0 (S (N.to_nat (NumRows (size ls)))))) ≫= be 32)).
Proof.
  intros [Hw Hnode Hp Hr Hrows] Hn. pose proof Hw as [Hfn _]. unfold F_Commit, F_commit_blocks. rewrite Hfn.
  pose proof (commit_rows_ok f (size ls) (N.to_nat (NumRows (size ls))) Hw Hn 0) as E.
  change (2 ^ N.of_nat 0) with 1 in E. rewrite N.div_1_r in E. change (N.of_nat 0) with 0 in E. rewrite E by lia. cbn [bind].
  cbn [concat]. rewrite concat_hash_bytes. do 3 f_equal. unfold WriteBE64. rewrite be_bytes_be. f_equal.
  apply N.mod_small. assert (int_max < two64) by done. lia.
Qed.

Lemma F_Restore_ok f ls old bytes : inv H f ls -> size ls <= int_max -> (forall a b, H a b < 256 ^ 32) -> Forall (λ h, h < 256 ^ 32) ls ->
  F_Commit f old = Ok bytes -> exists f', F_Restore bytes = Ok f' /\ inv H f' ls.
Proof.
  intros Hinv Hn HH Hl Hc. rewrite (F_Commit_ok f ls old Hinv Hn) in Hc.
  assert (Eb := f_equal (λ x, match x with Ok y => y | _ => [] end) Hc). cbn beta iota in Eb. rewrite <- Eb. clear Eb Hc.
  destruct Hinv as [Hw Hnode Hp Hr Hrows]. remember (size ls) as n eqn:En.
  assert (H62 : int_max < 2 ^ 62) by done. assert (H64 : 2 ^ 62 < two64) by done.
  unfold overwrite. rewrite <- app_assoc.
  generalize (drop (length (be 8 n ++ concat (rowlist (G f) n <$> seq 0 (S (N.to_nat (NumRows n)))) ≫= be 32)) old) as c. intros c.
  unfold F_Restore.
  assert (Er : ReadBE64 (be 8 n ++ (concat (rowlist (G f) n <$> seq 0 (S (N.to_nat (NumRows n)))) ≫= be 32) ++ c) 0 = Ok n).
  { pose proof (rd_app ReadBE64 8 [] (be 8 n)) as E. cbn [app] in E. change (size (@nil N)) with 0 in E.
    rewrite E; [|done|apply size_be]. rewrite be_value_be; [done|]. change (256 ^ N.of_nat 8) with two64. lia. }
  rewrite Er. cbn [bind].
  assert (HK : n < 2 ^ N.of_nat (S (N.to_nat (NumRows n)))).
  { rewrite pow_nat_S, N2Nat.id. pose proof (NumRows_bound n). pose proof (pow_pos (NumRows n)). lia. }
  pose proof (R62 n ltac:(lia)) as HR.
  destruct (restore_rows_ok (G f) n (S (N.to_nat (NumRows n))) ltac:(lia)) with (fuel := 65%nat) (row := 0%nat) (a := be 8 n) (c := c)
    (d := [@nil N]) (m := (∅ : gmap N N)) as (row' & d' & E & Hr' & Hd' & Hdd).
  { intros r i Hi. rewrite Hnode by done. rewrite En in Hi. by apply nh_fits. }
  { done. } { lia. } { lia. } { done. } { intros r. cbn [Nat.ltb Nat.leb]. destruct r as [|[|r]]; done. } { done. }
  rewrite size_be, Nat.sub_0_r in E. change (2 ^ N.of_nat 0) with 1 in E. rewrite N.div_1_r in E.
  change (N.of_nat 8) with 8 in E. change (N.of_nat 0) with 0 in E. rewrite E. cbn [bind fst snd].
  remember (Forest n d' [] (add_pos ∅ 0 (rowlist (G f) n 0))) as f1 eqn:Ef1.
  assert (HG : forall r i, node n (N.of_nat r) i -> G f1 r i = nh H (leaf_at ls) r i).
  { intros r i Hi. rewrite <- Hnode by done. unfold G at 1. rewrite Ef1. cbn [f_data]. rewrite Hdd. apply rowlist_total. by apply node_iff. }
  assert (Hlen : forall r, len f1 r = n / 2 ^ N.of_nat r).
  { intros r. unfold len. rewrite Ef1. cbn [f_data]. rewrite Hdd. apply rowlist_size. }
  assert (Hw1 : wide f1 n).
  { split; [by rewrite Ef1|]. intros r. rewrite Hlen. split; [lia|]. pose proof (pow_pos (N.of_nat r)).
    assert (n / 2 ^ N.of_nat r <= n) by (apply N.div_le_upper_bound; nia). lia. }
  assert (Hls : rowlist (G f) n 0 = ls).
  { apply total_ext.
    - pose proof (rowlist_size (G f) n 0) as Hs. change (2 ^ N.of_nat 0) with 1 in Hs. rewrite N.div_1_r, En in Hs. unfold size in Hs. rewrite En. unfold size. lia.
    - intros i Hi. pose proof (rowlist_size (G f) n 0) as Hs. unfold size in Hs at 1.
      replace i with (N.to_nat (N.of_nat i)) by lia. rewrite rowlist_total by lia.
      rewrite Hnode by (apply node_iff; lia). done. }
  rewrite Hls in Ef1.
  assert (Hp1 : posmap_inv f1 n).
  { rewrite En. apply posmap_pm.
    - intros i Hi. rewrite HG; [done|]. unfold node. change (2 ^ N.of_nat 0) with 1. lia.
    - rewrite Ef1. cbn [f_posmap]. apply (pm_add ls ∅ []).
      + intros h p. rewrite lookup_empty, lookup_nil. done.
      + rewrite app_nil_l. rewrite En in Hp. apply posmap_pm in Hp; [by eapply pm_NoDup|]. intros i Hi. rewrite Hnode; [done|].
        unfold node. change (2 ^ N.of_nat 0) with 1. lia. }
  destruct (F_RestoreRoots_ok f1 n Hw1 ltac:(lia)) as (rs & Ers & Hrs). rewrite Ers.
  exists (set_roots f1 rs). split; [done|]. split; rewrite <- ?En.
  - exact Hw1.
  - exact HG.
  - exact Hp1.
  - unfold F_Roots. cbn [f_roots set_roots]. rewrite Hrs. unfold spec_roots. rewrite <- En. apply list_fmap_ext.
    intros j t Ht%elem_of_list_lookup_2. apply HG. rewrite N2Nat.id. by apply trees_node.
  - cbn [f_data set_roots]. rewrite Ef1. cbn [f_data]. rewrite Hd'. assert (NumRows n <= N.of_nat row') by (apply NumRows_le; lia). lia.
Qed.
End Commit.
