(** * FileFacts: the file of a forest (proofs) *)
From stdpp Require Import sorting.
From Verif Require Import Base StateModel CodecModel ForestModel PosSpec PosFacts PathFacts MerkleSpec CodecSpec CodecFacts ForestFacts
  RemoveFacts ForestInv AddFacts UndoFacts CommitFacts ForestSpec HistFacts ForestExamples DiskFacts FileSpec.
From Coq Require Import ZifyBool ZifyNat ZifyN.
Ltac Zify.zify_post_hook ::= idtac.

(** ** Rows *)
Lemma rows_nil g n s k : n < 2 ^ N.of_nat s -> concat (rowlist g n <$> seq s k) = [].
Proof.
  revert s. induction k as [|k IH]; intros s Hs; [done|]. cbn [seq fmap list_fmap concat].
  rewrite IH; [|rewrite pow_nat_S; lia]. unfold rowlist. rewrite N.div_small by done. done.
Qed.
Lemma all_nodes_trim g n K : (K <= 64)%nat -> n < 2 ^ N.of_nat K -> all_nodes n g = concat (rowlist g n <$> seq 0 K).
Proof.
  intros HK Hn. unfold all_nodes. fold (rowlist g n). replace 64%nat with (K + (64 - K))%nat by lia.
  rewrite seq_app, fmap_app, concat_app. rewrite (rows_nil g n (0 + K)) by done. by rewrite app_nil_r.
Qed.
Lemma rows_ext g g' n s k : (forall r i, node n (N.of_nat r) i -> g r i = g' r i) -> rowlist g n <$> seq s k = rowlist g' n <$> seq s k.
Proof.
  intros Hg. apply list_fmap_ext. intros _ r _. unfold rowlist. apply list_fmap_ext. intros _ i Hi%elem_of_list_lookup_2%nseq_elem.
  apply Hg, node_iff. lia.
Qed.
Definition total (n : N) (s k : nat) : N := foldr (λ r s, n / 2 ^ N.of_nat r + s) 0 (seq s k).
Lemma total_S n s k : total n s (S k) = n / 2 ^ N.of_nat s + total n (S s) k.
Proof. done. Qed.
Lemma rows_size g n s k : size (concat (rowlist g n <$> seq s k)) = total n s k.
Proof.
  revert s. induction k as [|k IH]; intros s; [done|]. rewrite total_S. cbn [seq fmap list_fmap concat].
  rewrite size_app, rowlist_size, IH. done.
Qed.
Lemma total_nil n s k : n < 2 ^ N.of_nat s -> total n s k = 0.
Proof. intros Hn. rewrite <- (rows_size (λ _ _, 0)), rows_nil by done. done. Qed.
Lemma total_trim n s K k : (K <= k)%nat -> n < 2 ^ N.of_nat (s + K) -> total n s k = total n s K.
Proof.
  intros HK Hn. rewrite <- !(rows_size (λ _ _, 0)). replace k with (K + (k - K))%nat by lia.
  rewrite seq_app, fmap_app, concat_app, (rows_nil _ n (s + K)) by done. by rewrite app_nil_r.
Qed.
Lemma file_format_size n g : size (file_format n g) = file_length n.
Proof. unfold file_format, file_length. rewrite size_app, size_be, bind_be_length. unfold all_nodes. fold (rowlist g n). rewrite (rows_size g n 0 64). done. Qed.

(** Any hashes make up the rows. *)
Lemma rows_of n : forall k s (hs : list hash), size hs = total n s k -> exists g, hs = concat (rowlist g n <$> seq s k).
Proof.
  induction k as [|k IH]; intros s hs Hs.
  - exists (λ _ _, 0). by destruct hs.
  - rewrite total_S in Hs. remember (N.to_nat (n / 2 ^ N.of_nat s)) as q eqn:Eq.
    destruct (IH (S s) (drop q hs)) as [g Eg]; [unfold size in *; rewrite drop_length; lia|].
    exists (λ r, if (r =? s)%nat then (λ i, take q hs !!! N.to_nat i) else g r).
    cbn [seq fmap list_fmap concat]. rewrite <- (take_drop q hs) at 1. f_equal.
    + apply total_ext.
      * pose proof (rowlist_size (λ r, if (r =? s)%nat then (λ i, take q hs !!! N.to_nat i) else g r) n s) as E. unfold size in *. rewrite take_length. lia.
      * intros i Hi. rewrite take_length in Hi. replace i with (N.to_nat (N.of_nat i)) at 2 by lia. rewrite rowlist_total by lia.
        rewrite Nat.eqb_refl, Nat2N.id. done.
    + rewrite Eg. f_equal. apply list_fmap_ext. intros _ r Hr%elem_of_list_lookup_2%elem_of_seq. unfold rowlist.
      destruct (Nat.eqb_spec r s); [lia|done].
Qed.

(** Any bytes are hashes. *)
Lemma hashes_of (m : nat) : forall c, byte_string c -> 32 * N.of_nat m <= size c ->
  exists (hs : list hash) c', c = (hs ≫= be 32) ++ c' /\ length hs = m /\ fits 32 hs.
Proof.
  induction m as [|m IH]; intros c Hc Hs; [exists [], c; split; [done|]; split; [done|constructor]|].
  destruct (IH (drop 32 c)) as (hs & c' & E & El & Ef).
  { by apply Forall_drop. } { unfold size in *. rewrite drop_length. lia. }
  assert (Hl : length (take 32 c) = 32%nat) by (rewrite take_length; unfold size in Hs; lia).
  assert (Hb : byte_string (take 32 c)) by (by apply Forall_take).
  exists (be_value (take 32 c) :: hs), c'. split; [|split].
  - rewrite bind_be_cons, <- app_assoc, <- E. rewrite <- be_bytes_be. rewrite <- Hl at 1. rewrite be_bytes_value by done. by rewrite take_drop.
  - cbn [length]. lia.
  - constructor; [|done]. pose proof (be_value_bound _ Hb) as Hv. unfold size in Hv. by rewrite Hl in Hv.
Qed.

Lemma rowlist_elem g n r i : node n (N.of_nat r) i -> g r i ∈ rowlist g n r.
Proof. intros Hi%node_iff. apply elem_of_list_fmap. exists i. split; [done|]. apply nseq_elem. lia. Qed.

Lemma file_decompose n c : byte_string c -> n <= 2 ^ 62 -> file_length n <= 8 + size c ->
  exists g rest, be 8 n ++ c = file_format n g ++ rest /\ forall r i, node n (N.of_nat r) i -> g r i < 256 ^ 32.
Proof.
  intros Hc Hn Hs. unfold file_length in Hs. fold (total n 0 64) in Hs.
  destruct (hashes_of (N.to_nat (total n 0 64)) c Hc ltac:(lia)) as (hs & c' & -> & El & Ef).
  destruct (rows_of n 64 0 hs) as [g Eg]; [unfold size; lia|].
  exists g, c'. split.
  - unfold file_format. rewrite <- app_assoc. do 3 f_equal. exact Eg.
  - intros r i Hi. rewrite Eg in Ef. unfold fits in Ef. rewrite Forall_forall in Ef. apply Ef.
    assert (Hr : (r < 64)%nat).
    { destruct (decide (r < 64)%nat); [done|]. unfold node in Hi. assert (2 ^ 62 < 2 ^ N.of_nat r) by (apply pow_lt; lia).
      revert H Hi Hn. generalize (2 ^ N.of_nat r), (2 ^ 62). intros; nia. }
    apply elem_of_list_In, in_concat. exists (rowlist g n r). split.
    + apply elem_of_list_In, elem_of_list_fmap. exists r. split; [done|]. apply elem_of_seq. lia.
    + by apply elem_of_list_In, rowlist_elem.
Qed.

(** ** Opening a file that is long enough *)
Lemma open_long n g c : n <= 2 ^ 62 -> (forall r i, node n (N.of_nat r) i -> g r i < 256 ^ 32) ->
  exists f, F_Restore (file_format n g ++ c) = Ok f /\ wide f n /\ (forall r i, node n (N.of_nat r) i -> G f r i = g r i) /\
    F_Roots f = (λ t : N * N, g (N.to_nat t.1) t.2) <$> trees n /\ f_posmap f = add_pos ∅ 0 (rowlist g n 0) /\ NumRows n < size (f_data f).
Proof.
  intros Hn Hg. assert (H64 : 2 ^ 62 < two64) by done. pose proof (R62 n Hn) as HR.
  assert (HK : n < 2 ^ N.of_nat (S (N.to_nat (NumRows n)))).
  { rewrite pow_nat_S, N2Nat.id. pose proof (NumRows_bound n). pose proof (pow_pos (NumRows n)). lia. }
  unfold file_format. rewrite (all_nodes_trim g n (S (N.to_nat (NumRows n)))) by (done || lia). rewrite <- app_assoc.
  unfold F_Restore.
  assert (Er : ReadBE64 (be 8 n ++ (concat (rowlist g n <$> seq 0 (S (N.to_nat (NumRows n)))) ≫= be 32) ++ c) 0 = Ok n).
  { pose proof (rd_app ReadBE64 8 [] (be 8 n)) as E. cbn [app] in E. change (size (@nil N)) with 0 in E.
    rewrite E; [|done|apply size_be]. rewrite be_value_be; [done|]. change (256 ^ N.of_nat 8) with two64. lia. }
  rewrite Er. cbn [bind].
  destruct (restore_rows_ok g n (S (N.to_nat (NumRows n))) ltac:(lia)) with (fuel := 65%nat) (row := 0%nat) (a := be 8 n) (c := c)
    (d := [@nil N]) (m := (∅ : gmap N N)) as (row' & d' & E & Hr' & Hd' & Hdd).
  { done. } { done. } { lia. } { lia. } { done. } { intros r. cbn [Nat.ltb Nat.leb]. destruct r as [|[|r]]; done. } { done. }
  rewrite size_be, Nat.sub_0_r in E. change (2 ^ N.of_nat 0) with 1 in E. rewrite N.div_1_r in E.
  change (N.of_nat 8) with 8 in E. change (N.of_nat 0) with 0 in E. rewrite E. cbn [bind fst snd].
  remember (Forest n d' [] (add_pos ∅ 0 (rowlist g n 0))) as f1 eqn:Ef1.
  assert (HG : forall r i, node n (N.of_nat r) i -> G f1 r i = g r i).
  { intros r i Hi. unfold G at 1. rewrite Ef1. cbn [f_data]. rewrite Hdd. apply rowlist_total. by apply node_iff. }
  assert (Hlen : forall r, len f1 r = n / 2 ^ N.of_nat r).
  { intros r. unfold len. rewrite Ef1. cbn [f_data]. rewrite Hdd. apply rowlist_size. }
  assert (Hw1 : wide f1 n).
  { split; [by rewrite Ef1|]. intros r. rewrite Hlen. split; [lia|]. pose proof (pow_pos (N.of_nat r)).
    assert (n / 2 ^ N.of_nat r <= n) by (apply N.div_le_upper_bound; nia). lia. }
  destruct (F_RestoreRoots_ok f1 n Hw1 ltac:(lia)) as (rs & Ers & Hrs). rewrite Ers.
  exists (set_roots f1 rs). split; [done|]. split; [exact Hw1|]. split; [exact HG|]. split; [|split].
  - unfold F_Roots. cbn [f_roots set_roots]. rewrite Hrs. apply list_fmap_ext.
    intros j t Ht%elem_of_list_lookup_2. apply HG. rewrite N2Nat.id. by apply trees_node.
  - rewrite Ef1. done.
  - cbn [f_data set_roots]. rewrite Ef1. cbn [f_data]. rewrite Hd'. assert (NumRows n <= N.of_nat row') by (apply NumRows_le; lia). lia.
Qed.

(** ** Opening a short file *)
Lemma restore_row_short (flag : bool) bytes : forall fuel off num pos (m : gmap N N), 0 < num -> size bytes < off + 32 * num ->
  (N.to_nat (size bytes - off) < fuel)%nat -> restore_row fuel bytes off num pos flag m = UB.
Proof.
  induction fuel as [|fuel IH]; intros off num pos m Hnum Hs Hf; [lia|]. cbn [restore_row]. destruct (N.eqb_spec num 0); [lia|].
  unfold read_hash, read_bytes. destruct (N.leb_spec (off + 32) (size bytes)) as [Hle|]; [|done]. cbn [bind].
  rewrite IH; [done|lia|lia|lia].
Qed.

Lemma restore_row_size (flag : bool) bytes : forall fuel off num pos (m : gmap N N) r, restore_row fuel bytes off num pos flag m = Ok r ->
  (num = 0 \/ off + 32 * num <= size bytes).
Proof.
  induction fuel as [|fuel IH]; intros off num pos m r; cbn [restore_row]; (destruct (N.eqb_spec num 0); [by left|]); [done|].
  unfold read_hash, read_bytes. destruct (N.leb_spec (off + 32) (size bytes)) as [Hle|]; [|done]. cbn [bind].
  destruct (restore_row fuel _ _ _ _ _ _) as [r'| | | |] eqn:E; try done. intros _. apply IH in E. lia.
Qed.
Lemma restore_row_long (flag : bool) bytes : forall fuel off num pos (m : gmap N N), off + 32 * num <= size bytes ->
  (N.to_nat (size bytes - off) < fuel)%nat -> exists r, restore_row fuel bytes off num pos flag m = Ok r.
Proof.
  induction fuel as [|fuel IH]; intros off num pos m Hs Hf; [lia|]. cbn [restore_row]. destruct (N.eqb_spec num 0); [by eexists|].
  unfold read_hash, read_bytes. destruct (N.leb_spec (off + 32) (size bytes)) as [Hle|]; [|lia]. cbn [bind].
  edestruct IH as [r ->]; [..|by eexists]; lia.
Qed.

Lemma restore_rows_short bytes n K : n <= 2 ^ 62 -> n < 2 ^ N.of_nat K ->
  forall fuel row off d (m : gmap N N), (row <= K)%nat -> (K - row < fuel)%nat -> size d = N.of_nat row + 1 ->
    size bytes < off + 32 * total n row (K - row) -> off <= size bytes ->
    restore_rows fuel bytes n off (N.of_nat row) (n / 2 ^ N.of_nat row) d m = UB.
Proof.
  intros Hn HK. induction fuel as [|fuel IH]; intros row off d m Hrow Hfuel Hd Hs Ho; [lia|]. cbn [restore_rows].
  destruct (N.eqb_spec (n / 2 ^ N.of_nat row) 0) as [E|E].
  - exfalso. rewrite total_nil in Hs; [lia|]. apply N.div_small_iff in E; [done|]. pose proof (pow_pos (N.of_nat row)). lia.
  - assert (HrowK : (row < K)%nat).
    { destruct (decide (row < K)%nat); [done|]. assert (row = K) as -> by lia. rewrite N.div_small in E by done. done. }
    assert (HrR : N.of_nat row <= NumRows n).
    { destruct (N.le_gt_cases (N.of_nat row) (NumRows n)) as [|Hgt]; [done|]. destruct E. apply N.div_small.
      pose proof (NumRows_bound n). assert (2 ^ NumRows n < 2 ^ N.of_nat row) by (by apply pow_lt). lia. }
    rewrite RowOffsetRow_ok by done. cbn [bind].
    replace (K - row)%nat with (S (K - S row)) in Hs by lia. rewrite total_S in Hs.
    destruct (N.le_gt_cases (off + 32 * (n / 2 ^ N.of_nat row)) (size bytes)) as [Hle|Hgt].
    + edestruct (restore_row_long (n / 2 ^ N.of_nat row =? n) bytes) as [r Er]; [exact Hle| |].
      2: { rewrite Er. cbn [bind]. rewrite vec_get_ok by lia. cbn [bind]. rewrite vec_set_ok by lia. cbn [bind].
           rewrite N.shiftr_div_pow2. change (2 ^ 1) with 2.
           assert (Ediv : n / 2 ^ N.of_nat row / 2 = n / 2 ^ N.of_nat (S row)) by (rewrite <- div_pow_S; f_equal; f_equal; lia).
           rewrite Ediv. replace (N.of_nat row + 1) with (N.of_nat (S row)) by lia. apply IH.
           { lia. } { lia. }
           { rewrite CodecFacts.size_app, size_insert. unfold size at 2. cbn [length]. lia. }
           { lia. } { lia. } }
      unfold size. lia.
    + rewrite restore_row_short; [done|lia|lia|]. unfold size. lia.
Qed.

Lemma open_short n c : n <= 2 ^ 62 -> 8 + size c < file_length n -> F_Restore (be 8 n ++ c) = UB.
Proof.
  intros Hn Hs. assert (H64 : 2 ^ 62 < two64) by done. unfold file_length in Hs. fold (total n 0 64) in Hs. unfold F_Restore.
  pose proof (rd_app ReadBE64 8 [] (be 8 n) c) as E. cbn [app] in E. change (size (@nil N)) with 0 in E.
  rewrite E; [|done|apply size_be]. rewrite be_value_be; [|change (256 ^ N.of_nat 8) with two64; lia]. cbn [bind].
  assert (H63 : 2 ^ 62 < 2 ^ N.of_nat 63) by done.
  pose proof (restore_rows_short (be 8 n ++ c) n 63 Hn ltac:(lia) 65 0 8 [[]] ∅) as ER.
  change (2 ^ N.of_nat 0) with 1 in ER. rewrite N.div_1_r in ER. change (N.of_nat 0) with 0 in ER.
  rewrite ER; [done|lia|lia|done| |].
  - rewrite size_app, size_be. rewrite (total_trim n 0 (63 - 0) 64) in Hs by (lia || (change (2 ^ N.of_nat (0 + (63 - 0))) with (2 ^ N.of_nat 63); lia)). lia.
  - rewrite size_app, size_be. lia.
Qed.

(** ** The properties *)
Lemma layout_lem H f us ls old : reachable H f us -> holds_leaves f ls ->
  F_Commit f old = Ok (merkle_file H ls ++ drop (length (merkle_file H ls)) old).
Proof.
  intros Hr Hh. destruct (reachable_holds H f us ls Hr Hh) as (Hi & Hn & _).
  assert (H31 : int_max + 1 = 2 ^ 31) by done. assert (H62 : 2 ^ 31 <= 2 ^ 62) by done.
  rewrite (F_Commit_ok H f ls old Hi ltac:(lia)). f_equal. unfold overwrite.
  assert (E : be 8 (size ls) ++ (concat (rowlist (G f) (size ls) <$> seq 0 (S (N.to_nat (NumRows (size ls))))) ≫= be 32) = merkle_file H ls).
  { unfold merkle_file, file_format. pose proof (R62 (size ls) ltac:(lia)) as HR.
    rewrite (all_nodes_trim _ (size ls) (S (N.to_nat (NumRows (size ls))))).
    - do 3 f_equal. apply rows_ext. intros r i Hx. by rewrite (inv_node _ _ _ Hi).
    - lia.
    - rewrite pow_nat_S, N2Nat.id. pose proof (NumRows_bound (size ls)). pose proof (pow_pos (NumRows (size ls))). lia. }
  by rewrite E.
Qed.

Lemma read_node f n r i : wide f n -> n <= 2 ^ 62 -> node n (N.of_nat r) i -> F_Read f (enc (NumRows n) (N.of_nat r) i) = Ok (G f r i).
Proof.
  intros Hw Hn Hi. pose proof Hw as [Hfn _]. pose proof (F_Read_ok f r i) as HR. rewrite Hfn in HR. apply HR; [done|by apply node_slot|]. eapply wide_node; [done|done].
Qed.

Lemma header_of bytes : byte_string bytes -> 8 <= size bytes -> exists n c, bytes = be 8 n ++ c /\ byte_string c.
Proof.
  intros Hb Hs. assert (Hl : length (take 8 bytes) = 8%nat) by (rewrite take_length; unfold size in Hs; lia).
  exists (be_value (take 8 bytes)), (drop 8 bytes). split; [|by apply Forall_drop].
  rewrite <- be_bytes_be. rewrite <- Hl at 1. rewrite be_bytes_value by (by apply Forall_take). by rewrite take_drop.
Qed.

Lemma open_lem n c : byte_string c -> n <= 2 ^ 62 ->
  (8 + size c < file_length n -> F_Restore (be 8 n ++ c) = UB) /\
  (file_length n <= 8 + size c -> exists g rest f, be 8 n ++ c = file_format n g ++ rest /\ F_Restore (be 8 n ++ c) = Ok f /\ f_n f = n /\
     (forall R r i, is_height n R -> node n r i -> F_Read f (enc R r i) = Ok (g (N.to_nat r) i)) /\
     (forall ts, is_forest n ts -> F_Roots f = (λ t : N * N, g (N.to_nat t.1) t.2) <$> ts)).
Proof.
  intros Hc Hn. split; [by apply open_short|]. intros Hs. destruct (file_decompose n c Hc Hn Hs) as (g & rest & E & Hg).
  destruct (open_long n g rest Hn Hg) as (f & Ef & Hw & HG & Hr & _). exists g, rest, f. rewrite E. split; [done|]. split; [done|]. pose proof Hw as [Hfn _].
  split; [done|]. split.
  - intros R r i HR Hi. apply NumRows_height in HR as <-. rewrite <- (N2Nat.id r) in Hi. rewrite <- (N2Nat.id r) at 1.
    rewrite (read_node f n) by done. by rewrite HG.
  - intros ts Hts. rewrite Hr. by rewrite (forest_unique n ts Hts).
Qed.

Lemma open_tiny bytes : size bytes < 8 -> F_Restore bytes = UB.
Proof. intros Hs. unfold F_Restore, ReadBE64, read_bytes. destruct (N.leb_spec (0 + 8) (size bytes)); [lia|done]. Qed.

(** A header above 2^62 makes RowOffset shift by 64. *)
Lemma open_big n c : 2 ^ 62 < n -> n < 2 ^ 64 -> F_Restore (be 8 n ++ c) = UB.
Proof.
  intros Hlo Hhi. unfold F_Restore. pose proof (rd_app ReadBE64 8 [] (be 8 n) c) as E. cbn [app] in E. change (size (@nil N)) with 0 in E.
  rewrite E; [|done|apply size_be]. rewrite be_value_be; [|change (256 ^ N.of_nat 8) with (2 ^ 64); lia]. cbn [bind].
  assert (Hro : RowOffsetRow n 0 = UB).
  { assert (HR : NumRows n = 63 \/ NumRows n = 64).
    { destruct (N.le_gt_cases n (2 ^ 63)) as [H63|H63]; [left|right]; apply NumRows_height; (split; [done || lia|]); intros R' HR'.
      - apply N.lt_succ_r. destruct (N.lt_ge_cases 63 (N.succ R')) as [|Hg]; [done|]. exfalso. assert (Hp : 2 ^ R' <= 2 ^ 62) by (apply N.pow_le_mono_r; lia). lia.
      - apply N.lt_succ_r. destruct (N.lt_ge_cases 64 (N.succ R')) as [|Hg]; [done|]. exfalso. assert (Hp : 2 ^ R' <= 2 ^ 63) by (apply N.pow_le_mono_r; lia). lia. }
    unfold RowOffsetRow, MaxNodes. destruct HR as [-> | ->]; vm_compute; reflexivity. }
  assert (Hz : (n =? 0) = false) by (apply N.eqb_neq; assert (0 < 2 ^ 62) by done; lia).
  remember 64%nat as k eqn:Ek. replace 65%nat with (S k) by (by subst k). cbn [restore_rows]. rewrite Hz, Hro. done.
Qed.
(** Which files are opened. *)
Lemma open_exact_lem bytes : byte_string bytes ->
  let fits := exists n c, bytes = be 8 n ++ c /\ n <= 2 ^ 62 /\ file_length n <= size bytes in
  (fits <-> exists f, F_Restore bytes = Ok f) /\ (~ fits <-> F_Restore bytes = UB).
Proof.
  intros Hb fits. assert (H64 : 2 ^ 62 < 2 ^ 64) by done.
  assert (Hcase : (fits /\ exists f, F_Restore bytes = Ok f) \/ (~ fits /\ F_Restore bytes = UB)).
  { destruct (N.le_gt_cases 8 (size bytes)) as [H8|H8].
    2: { right. split; [|by apply open_tiny]. intros (n & c & -> & _). revert H8. unfold size. rewrite app_length. pose proof (size_be 8 n) as Hs. unfold size in Hs. lia. }
    destruct (header_of bytes Hb H8) as (n' & c & E & Hc).
    assert (En : exists n, n < 2 ^ 64 /\ bytes = be 8 n ++ c).
    { exists (n' mod two64). split; [by apply N.mod_lt|]. rewrite E. f_equal. rewrite <- !be_bytes_be.
      rewrite <- (be_bytes_value (be_bytes 8 n')) at 1 by apply be_bytes_byte. rewrite be_bytes_length, be_value_bytes. done. }
    clear n' E. destruct En as (n & Hn & ->).
    assert (Huniq : forall n2 c2, be 8 n ++ c = be 8 n2 ++ c2 -> n2 <= 2 ^ 62 -> n2 = n).
    { intros n2 c2 E Hn2. pose proof (size_be 8 n) as S1. pose proof (size_be 8 n2) as S2. unfold size in S1, S2.
      apply app_inj_1 in E as [E _]; [|lia]. apply (f_equal be_value) in E. rewrite !be_value_be in E; [done|change (256 ^ N.of_nat 8) with (2 ^ 64); lia..]. }
    assert (Hsz : size (be 8 n ++ c) = 8 + size c).
    { unfold size. rewrite app_length. pose proof (size_be 8 n) as Hs. unfold size in Hs. lia. }
    destruct (N.le_gt_cases n (2 ^ 62)) as [H62|H62].
    2: { right. split; [|by apply open_big]. intros (n2 & c2 & E & Hn2 & _). pose proof (Huniq _ _ E Hn2). lia. }
    destruct (open_lem n c Hc H62) as [Hsh Hlo]. destruct (N.le_gt_cases (file_length n) (8 + size c)) as [Hle|Hlt].
    - left. destruct (Hlo Hle) as (g & rest & f & _ & Ef & _). split; [|by exists f]. exists n, c. split; [done|]. split; [done|]. by rewrite Hsz.
    - right. split; [|by apply Hsh]. intros (n2 & c2 & E & Hn2 & Hl). rewrite (Huniq _ _ E Hn2), Hsz in Hl. lia. }
  destruct Hcase as [[H1 [f H2]]|[H1 H2]].
  - split; [by split; [intros _; exists f|]|]. split; [done|]. rewrite H2. done.
  - split; [|done]. split; [done|]. rewrite H2. by intros [? ?].
Qed.

Lemma open_close_lem bytes f : byte_string bytes -> F_Restore bytes = Ok f -> f_n f < 2 ^ 31 -> F_Commit f bytes = Ok bytes.
Proof.
  intros Hb Ef Hf. assert (H31 : int_max + 1 = 2 ^ 31) by done. assert (H62 : 2 ^ 31 <= 2 ^ 62) by done. assert (H64 : 2 ^ 62 < two64) by done.
  destruct (N.le_gt_cases 8 (size bytes)) as [H8|H8]; [|rewrite open_tiny in Ef; done].
  destruct (header_of bytes Hb H8) as (n' & c & E & Hc).
  assert (En : exists n, n < two64 /\ bytes = be 8 n ++ c).
  { exists (n' mod two64). split; [by apply N.mod_lt|]. rewrite E. f_equal. rewrite <- !be_bytes_be.
    rewrite <- (be_bytes_value (be_bytes 8 n')) at 1 by apply be_bytes_byte. rewrite be_bytes_length, be_value_bytes. done. }
  clear n' E. destruct En as (n & Hn & ->).
  assert (Hnf : f_n f = n).
  { unfold F_Restore in Ef. pose proof (rd_app ReadBE64 8 [] (be 8 n) c) as E. cbn [app] in E. change (size (@nil N)) with 0 in E.
    rewrite E in Ef; [|done|apply size_be]. rewrite be_value_be in Ef; [|change (256 ^ N.of_nat 8) with two64; lia]. cbn [bind] in Ef.
    apply bind_ok in Ef as (r & _ & Ef). unfold F_RestoreRoots in Ef. apply bind_ok in Ef as (ps & _ & Ef).
    apply bind_ok in Ef as (rs & _ & Ef). apply (f_equal (λ x, match x with Ok y => y | _ => f end)) in Ef. by rewrite <- Ef. }
  rewrite Hnf in Hf. clear Hnf. pose proof (open_short n c ltac:(lia)) as Hshort.
  destruct (N.le_gt_cases (file_length n) (8 + size c)) as [Hle|Hgt]; [|rewrite Hshort in Ef; done].
  destruct (file_decompose n c Hc ltac:(lia) Hle) as (g & rest & E & Hg). rewrite E in *.
  destruct (open_long n g rest ltac:(lia) Hg) as (f' & Ef' & Hw & HG & _ & _ & Hrows).
  rewrite Ef' in Ef. apply (f_equal (λ x, match x with Ok y => y | _ => f end)) in Ef. subst f'. pose proof Hw as [Hfn _].
  unfold F_Commit, F_commit_blocks. rewrite Hfn.
  pose proof (commit_rows_ok f n (N.to_nat (NumRows n)) Hw ltac:(lia) 0) as Ec.
  change (2 ^ N.of_nat 0) with 1 in Ec. rewrite N.div_1_r in Ec. change (N.of_nat 0) with 0 in Ec. rewrite Ec by lia. cbn [bind].
  cbn [concat]. rewrite concat_hash_bytes. f_equal.
  assert (Ew : WriteBE64 n = be 8 n).
  { unfold WriteBE64. rewrite be_bytes_be. f_equal. apply N.mod_small. lia. }
  rewrite Ew. pose proof (R62 n ltac:(lia)) as HR.
  assert (Et : be 8 n ++ (concat (rowlist (G f) n <$> seq 0 (S (N.to_nat (NumRows n)))) ≫= be 32) = file_format n g).
  { unfold file_format. rewrite (all_nodes_trim _ n (S (N.to_nat (NumRows n)))).
    - do 3 f_equal. by apply rows_ext.
    - lia.
    - rewrite pow_nat_S, N2Nat.id. pose proof (NumRows_bound n). pose proof (pow_pos (NumRows n)). lia. }
  rewrite Et. unfold overwrite. by rewrite drop_app.
Qed.

(** ** A damaged file *)
Definition a68 : list leaf := [(1, false); (2, false)].
Definition run68 : res (list hash * hash * hash * N) :=
  let* r := F_Modify ex_H (RamForest_new 0) a68 [] in
  let* bytes := F_Commit r.2 [] in
  let* g := F_Restore (<[103%nat := 99]> bytes) in
  let* h := F_GetLeaf g 0 in
  let* h' := F_GetLeaf g 1 in
  Ok (F_Roots g, h, h', f_n g).
Lemma run68_ok : run68 = Ok ([99], 1, 2, 2).
Proof. vm_compute. reflexivity. Qed.
Lemma damaged_lem : exists H f us bytes k b g ls, reachable H f us /\ F_Commit f [] = Ok bytes /\ F_Restore (<[k := b]> bytes) = Ok g /\
  holds_leaves f ls /\ holds_leaves g ls /\ ~ roots_of H ls (F_Roots g).
Proof.
  pose proof run68_ok as E. unfold run68 in E.
  destruct (step_ok ex_H (RamForest_new 0) [] [] a68 [] ltac:(constructor) holds_new) as (u0 & f & E0 & _ & _ & H1 & H2).
  { done. } { apply valid_nil. } { apply (bool_decide_unpack _). by vm_compute. }
  assert (Els : spec_remove [] [] ++ a68.*1 = [1; 2]) by (by vm_compute). rewrite Els in H2. clear Els.
  rewrite E0 in E. cbn [bind snd] in E. apply bind_ok in E as (bytes & E2 & E). apply bind_ok in E as (g & E3 & E).
  apply bind_ok in E as (h & E4 & E). apply bind_ok in E as (h' & E5 & E). apply (f_equal (fun x => match x with Ok y => y | _ => ([], 0, 0, 0) end)) in E.
  assert (Ea := f_equal (fun x => x.1.1.1) E). assert (Eb := f_equal (fun x => x.1.1.2) E). assert (Ec := f_equal (fun x => x.1.2) E). assert (Ed := f_equal snd E). cbn [fst snd] in Ea, Eb, Ec, Ed.
  exists ex_H, f, [], bytes, 103%nat, 99, g, [1; 2]. split; [done|]. split; [done|]. split; [done|]. split; [done|]. split.
  - split; [done|]. intros i Hi. change (size [1; 2]) with 2 in Hi. assert (i = 0 \/ i = 1) as [->| ->] by lia.
    + rewrite E4, Eb. done.
    + rewrite E5, Ec. done.
  - intros (ts & Hts & Er). apply forest_unique in Hts. rewrite Hts, Ea in Er. by vm_compute in Er.
Qed.

(** ** A crash after the last byte *)
Lemma crash_end_lem H f' us' old bs k : reachable H f' us' -> (forall a b, H a b < 256 ^ 32) ->
  (forall i h, i < f_n f' -> F_GetLeaf f' i = Ok h -> h < 256 ^ 32) -> F_commit_blocks f' = Ok bs -> (length (concat bs) <= k)%nat ->
  exists g, F_Restore (overwrite old (take k (concat bs))) = Ok g /\ same_forest f' g.
Proof.
  intros Hr HH Hl Eb Hk. destruct (C10_lem H f' us' old Hr HH Hl) as (bytes & g & Ec & Er & Hs). exists g. split; [|done].
  unfold F_Commit in Ec. rewrite Eb in Ec. cbn [bind] in Ec. apply (f_equal (λ x, match x with Ok y => y | _ => [] end)) in Ec. cbn beta iota in Ec.
  rewrite take_ge by done. by rewrite Ec.
Qed.

Lemma ex_blocks : exists f us bs, reachable ex_H f us /\ (forall a b, ex_H a b < 256 ^ 32) /\
  (forall i h, i < f_n f -> F_GetLeaf f i = Ok h -> h < 256 ^ 32) /\ F_commit_blocks f = Ok bs.
Proof.
  destruct ex_history as (f & u0 & _ & _ & Hr & Hh & Hn & _). pose proof (layout_lem ex_H f [u0] ex_ls [] Hr Hh) as E.
  unfold F_Commit in E. apply bind_ok in E as (bs & E & _). exists f, [u0], bs. split; [done|].
  split; [exact ex_H_fits|]. split; [|done]. intros i h. exact (ex_leaf_fits f i h Hh).
Qed.
