(** * CrashFacts: a crash at any byte of Commit (proofs) *)
From stdpp Require Import sorting.
From Verif Require Import Base StateModel CodecModel ForestModel PosSpec PosFacts PathFacts MerkleSpec CodecSpec CodecFacts ForestFacts
  RemoveFacts ForestInv AddFacts UndoFacts CommitFacts ForestSpec HistFacts ForestExamples DiskFacts FileSpec FileFacts.
From Coq Require Import ZifyBool ZifyNat ZifyN.
Ltac Zify.zify_post_hook ::= idtac.

(** ** Where a hash is *)
Lemma rows_lookup g n : forall m s k i, (m < k)%nat -> i < n / 2 ^ N.of_nat (s + m) ->
  concat (rowlist g n <$> seq s k) !! N.to_nat (total n s m + i) = Some (g (s + m)%nat i).
Proof.
  induction m as [|m IH]; intros s k i Hk Hi; (destruct k as [|k]; [lia|]); cbn [seq fmap list_fmap concat].
  - change (total n s 0) with 0. rewrite N.add_0_l. rewrite Nat.add_0_r in *.
    pose proof (rowlist_size g n s) as Es. rewrite lookup_app_l by (unfold size in Es; lia).
    unfold rowlist. rewrite list_lookup_fmap, nseq_lookup by lia. cbn [fmap option_fmap option_map]. f_equal. f_equal. lia.
  - rewrite total_S. pose proof (rowlist_size g n s) as Es. unfold size in Es.
    rewrite lookup_app_r by lia. replace (s + S m)%nat with (S s + m)%nat in * by lia.
    rewrite <- (IH (S s) k i) by (lia || done). f_equal. lia.
Qed.
Lemma bind_be_at (hs : list N) : forall (j : nat) h, hs !! j = Some h -> take 32 (drop (32 * j) (hs ≫= be 32)) = be 32 h.
Proof.
  induction hs as [|x hs IH]; intros j h; [done|]. rewrite bind_be_cons. destruct j as [|j]; cbn [lookup list_lookup].
  - intros [= ->]. change (32 * 0)%nat with 0%nat. rewrite drop_0. rewrite take_app_alt; [done|]. by rewrite be_length.
  - intros E. replace (32 * S j)%nat with (length (be 32 x) + 32 * j)%nat by (rewrite be_length; lia).
    rewrite <- drop_drop, drop_app. by apply IH.
Qed.

Lemma node_rows n r i : n <= 2 ^ 62 -> node n (N.of_nat r) i -> (r < 64)%nat.
Proof.
  intros Hn Hi. destruct (decide (r < 64)%nat); [done|]. unfold node in Hi. assert (Hp : 2 ^ 62 < 2 ^ N.of_nat r) by (apply pow_lt; lia).
  revert Hp Hi Hn. generalize (2 ^ N.of_nat r), (2 ^ 62). intros; nia.
Qed.
Lemma file_at n g rest r i : n <= 2 ^ 62 -> node n r i -> bytes_at (file_format n g ++ rest) (file_offset n r i) 32 = be 32 (g (N.to_nat r) i).
Proof.
  intros Hn Hi. rewrite <- (N2Nat.id r) in Hi. remember (N.to_nat r) as r' eqn:Er. pose proof (node_rows n r' i Hn Hi) as Hr.
  unfold bytes_at, file_offset. rewrite <- Er. fold (total n 0 r'). unfold file_format, all_nodes. fold (rowlist g n). rewrite <- app_assoc.
  apply node_iff in Hi. pose proof (rows_lookup g n r' 0 64 i Hr ltac:(exact Hi)) as El. cbn [Nat.add] in El.
  remember (concat (rowlist g n <$> seq 0 64)) as hs eqn:Ehs. clear Ehs.
  replace (N.to_nat (8 + 32 * (total n 0 r' + i))) with (length (be 8 n) + 32 * N.to_nat (total n 0 r' + i))%nat by (rewrite be_length; lia).
  rewrite <- drop_drop, drop_app. pose proof (lookup_lt_Some _ _ _ El) as Hlt. pose proof (bind_be_length 32 hs) as Eb. unfold size in Eb.
  rewrite drop_app_le by lia. rewrite take_app_le by (rewrite drop_length; lia). by apply bind_be_at.
Qed.

(** The node lies within the file. *)
Lemma file_offset_le n r i : n <= 2 ^ 62 -> node n r i -> file_offset n r i + 32 <= file_length n.
Proof.
  intros Hn Hi. pose proof (file_at n (λ _ _, 0) [] r i Hn Hi) as E. apply (f_equal length) in E. rewrite be_length in E.
  unfold bytes_at in E. rewrite app_nil_r, take_length, drop_length in E. pose proof (file_format_size n (λ _ _, 0)) as Es. unfold size in Es. lia.
Qed.

(** ** Opening any file, by offsets *)
Lemma be_inj_bytes k x bs : x < 256 ^ N.of_nat k -> be k x = bs -> x = be_value bs.
Proof. intros Hx <-. by rewrite be_value_be. Qed.

Lemma open_at n c : byte_string c -> n <= 2 ^ 62 -> file_length n <= 8 + size c ->
  exists f, F_Restore (be 8 n ++ c) = Ok f /\ f_n f = n /\
    (forall R r i, is_height n R -> node n r i -> exists h, F_Read f (enc R r i) = Ok h /\ be 32 h = bytes_at (be 8 n ++ c) (file_offset n r i) 32 /\ h < 256 ^ 32).
Proof.
  intros Hc Hn Hs. destruct (file_decompose n c Hc Hn Hs) as (g & rest & E & Hg).
  destruct (open_long n g rest Hn Hg) as (f & Ef & Hw & HG & _). exists f. rewrite E. split; [done|]. pose proof Hw as [Hfn _]. split; [done|].
  intros R r i HR Hi. apply NumRows_height in HR as <-. exists (g (N.to_nat r) i). rewrite file_at by done.
  pose proof Hi as Hi'. rewrite <- (N2Nat.id r) in Hi'. split; [|split; [done|by apply Hg]].
  rewrite <- (N2Nat.id r) at 1. rewrite (read_node f n) by done. by rewrite HG.
Qed.

(** ** Slices of a partly overwritten file *)
Lemma at_split (old new : list N) k a m : (a + m <= length new)%nat -> (a + m <= length old \/ a + m <= k)%nat ->
  take m (drop a (overwrite old (take k new))) = take (k - a) (take m (drop a new)) ++ drop (k - a) (take m (drop a old)).
Proof.
  intros Hm Ho. unfold overwrite. apply list_eq. intros j. destruct (decide (j < m)%nat) as [Hj|Hj].
  - rewrite lookup_take, lookup_drop by done. destruct (decide (a + j < k)%nat) as [Hk|Hk].
    + rewrite lookup_app_l by (rewrite take_length; lia). rewrite lookup_take by done.
      rewrite lookup_app_l by (rewrite !take_length, drop_length; lia). rewrite !lookup_take by lia. by rewrite lookup_drop.
    + rewrite lookup_app_r by (rewrite take_length; lia). rewrite lookup_drop. rewrite take_length.
      rewrite lookup_app_r by (rewrite !take_length, drop_length; lia). rewrite lookup_drop, !take_length, drop_length.
      rewrite lookup_take by lia. rewrite lookup_drop. f_equal. lia.
  - rewrite !lookup_ge_None_2; [done| |].
    + rewrite app_length, drop_length, !take_length, !drop_length. lia.
    + rewrite take_length. lia.
Qed.
Lemma overwrite_size old new k : (k <= length new)%nat -> size (overwrite old (take k new)) = N.max (size old) (N.of_nat k).
Proof. intros Hk. unfold overwrite, size. rewrite app_length, drop_length, take_length. lia. Qed.

(** ** The properties *)
Lemma reachable_read H f us ls : reachable H f us -> holds_leaves f ls -> f_n f = size ls /\ size ls < 2 ^ 31 /\
  (forall R r i, is_height (size ls) R -> node (size ls) r i -> F_Read f (enc R r i) = Ok (nh H (leaf_at ls) (N.to_nat r) i)).
Proof.
  intros Hr Hh. destruct (reachable_holds H f us ls Hr Hh) as (Hi & Hn & _). pose proof (inv_wide _ _ _ Hi) as Hw. pose proof Hw as [Hfn _].
  split; [done|]. split; [done|]. intros R r i HR Hx. apply NumRows_height in HR as <-. assert (H62 : 2 ^ 31 <= 2 ^ 62) by done.
  pose proof Hx as Hx'. rewrite <- (N2Nat.id r) in Hx'. rewrite <- (N2Nat.id r) at 1. rewrite (read_node f (size ls)) by (done || lia).
  by rewrite (inv_node _ _ _ Hi).
Qed.
Lemma blocks_file H f us ls bs : reachable H f us -> holds_leaves f ls -> F_commit_blocks f = Ok bs -> concat bs = merkle_file H ls.
Proof.
  intros Hr Hh Eb. pose proof (layout_lem H f us ls [] Hr Hh) as E. unfold F_Commit in E. rewrite Eb in E. cbn [bind] in E.
  apply (f_equal (λ x, match x with Ok y => y | _ => [] end)) in E. cbn beta iota in E. unfold overwrite in E.
  by rewrite !drop_nil, !app_nil_r in E.
Qed.
Lemma holds_some H f us : reachable H f us -> exists ls, holds_leaves f ls.
Proof. intros Hr. destruct (C01_lem H f us Hr) as (ls & Hh & _). by exists ls. Qed.
Lemma byte_be k x : byte_string (be k x).
Proof. rewrite <- be_bytes_be. apply be_bytes_byte. Qed.
Lemma byte_bind (hs : list N) : byte_string (hs ≫= be 32).
Proof. induction hs as [|x hs IH]; [constructor|]. rewrite bind_be_cons. apply Forall_app. split; [apply byte_be|done]. Qed.
Lemma byte_file n g : byte_string (file_format n g).
Proof. apply Forall_app. split; [apply byte_be|apply byte_bind]. Qed.
Lemma byte_overwrite old new k : byte_string old -> byte_string new -> byte_string (overwrite old (take k new)).
Proof. intros Ho Hn. apply Forall_app. split; [by apply Forall_take|by apply Forall_drop]. Qed.
Lemma crash_any_lem H f us old bs k : reachable H f us -> byte_string old -> F_commit_blocks f = Ok bs -> (8 <= k <= length (concat bs))%nat ->
  let file := overwrite old (take k (concat bs)) in
  (N.max (size old) (N.of_nat k) < file_length (f_n f) -> F_Restore file = UB) /\
  (file_length (f_n f) <= N.max (size old) (N.of_nat k) -> exists g, F_Restore file = Ok g /\ f_n g = f_n f /\
    forall R r i, is_height (f_n f) R -> node (f_n f) r i -> exists h h', F_Read f (enc R r i) = Ok h /\ F_Read g (enc R r i) = Ok h' /\
      let a := file_offset (f_n f) r i in
      be 32 h' = take (k - N.to_nat a) (be 32 h) ++ drop (k - N.to_nat a) (bytes_at old a 32)).
Proof.
  intros Hr Ho Eb Hk file. destruct (holds_some H f us Hr) as [ls Hh]. destruct (reachable_read H f us ls Hr Hh) as (Hfn & Hn & Hread).
  rewrite Hfn. pose proof (blocks_file H f us ls bs Hr Hh Eb) as Ef. assert (H62 : 2 ^ 31 <= 2 ^ 62) by done.
  pose proof (overwrite_size old (concat bs) k ltac:(lia)) as Esz. fold file in Esz.
  assert (Hbf : byte_string file) by (apply byte_overwrite; [done|rewrite Ef; apply byte_file]).
  assert (Ehd : take 8 file = be 8 (size ls)).
  { unfold file, overwrite. rewrite take_app_le by (rewrite take_length; lia). rewrite take_take, Nat.min_l by lia. rewrite Ef. unfold merkle_file, file_format.
    apply take_app_alt. by rewrite be_length. }
  assert (Efile : file = be 8 (size ls) ++ drop 8 file) by (rewrite <- Ehd; by rewrite take_drop).
  assert (Hc : byte_string (drop 8 file)) by (by apply Forall_drop).
  assert (Es8 : 8 + size (drop 8 file) = size file) by (rewrite Efile at 2; rewrite size_app, size_be; done).
  split.
  - intros Hs. rewrite Efile. apply open_short; lia.
  - intros Hs. destruct (open_at (size ls) (drop 8 file) Hc ltac:(lia) ltac:(lia)) as (g & Eg & Hgn & Hgr). rewrite <- Efile in Eg, Hgr.
    exists g. split; [done|]. split; [done|]. intros R r i HR Hi. destruct (Hgr R r i HR Hi) as (h' & Eh' & Ebe & _).
    exists (nh H (leaf_at ls) (N.to_nat r) i), h'. split; [by apply Hread|]. split; [done|]. cbn zeta. rewrite Ebe.
    pose proof (file_offset_le (size ls) r i ltac:(lia) Hi) as Hle.
    pose proof (file_at (size ls) (nh H (leaf_at ls)) [] r i ltac:(lia) Hi) as Ea. rewrite app_nil_r in Ea. fold (merkle_file H ls) in Ea. rewrite <- Ef in Ea.
    rewrite <- Ea. unfold bytes_at, file. apply at_split.
    + pose proof (file_format_size (size ls) (nh H (leaf_at ls))) as E. fold (merkle_file H ls) in E. rewrite <- Ef in E. unfold size at 1 in E. lia.
    + unfold size in Hs at 2. lia.
Qed.

Lemma crash_same_lem H f us f' us' old0 old bs k : reachable H f us -> reachable H f' us' -> f_n f' = f_n f -> byte_string old0 ->
  F_Commit f old0 = Ok old -> F_commit_blocks f' = Ok bs -> (8 <= k <= length (concat bs))%nat ->
  exists g, F_Restore (overwrite old (take k (concat bs))) = Ok g /\ f_n g = f_n f /\
    forall R r i, is_height (f_n f) R -> node (f_n f) r i -> exists h h' hg, F_Read f (enc R r i) = Ok h /\ F_Read f' (enc R r i) = Ok h' /\
      F_Read g (enc R r i) = Ok hg /\
      let m := (k - N.to_nat (file_offset (f_n f) r i))%nat in be 32 hg = take m (be 32 h') ++ drop m (be 32 h).
Proof.
  intros Hr Hr' En Ho Ec Eb Hk. destruct (holds_some H f us Hr) as [ls Hh]. destruct (reachable_read H f us ls Hr Hh) as (Hfn & Hn & Hread).
  assert (H62 : 2 ^ 31 <= 2 ^ 62) by done.
  rewrite (layout_lem H f us ls old0 Hr Hh) in Ec. apply (f_equal (λ x, match x with Ok y => y | _ => [] end)) in Ec. cbn beta iota in Ec.
  assert (Hbo : byte_string old) by (rewrite <- Ec; apply Forall_app; split; [apply byte_file|by apply Forall_drop]).
  destruct (crash_any_lem H f' us' old bs k Hr' Hbo Eb Hk) as [_ Hx]. rewrite En in Hx.
  destruct Hx as (g & Eg & Egn & Hg).
  { rewrite Hfn. assert (file_length (size ls) <= size old); [|lia]. rewrite <- Ec, size_app. unfold merkle_file at 1. rewrite file_format_size. lia. }
  exists g. split; [done|]. split; [done|]. intros R r i HR Hi. destruct (Hg R r i HR Hi) as (h' & hg & E1 & E2 & E3).
  rewrite Hfn in HR, Hi. exists (nh H (leaf_at ls) (N.to_nat r) i), h', hg. split; [by apply Hread|]. split; [done|]. split; [done|]. cbn zeta in *. rewrite E3. f_equal. f_equal.
  rewrite <- Ec, Hfn. unfold merkle_file at 1. apply file_at; [lia|done].
Qed.

(** A crash in the header. *)
Lemma be_head n : n < 2 ^ 31 -> be 8 n !! 0%nat = Some 0.
Proof.
  intros Hn. unfold be. cbn [seq fmap list_fmap lookup list_lookup]. f_equal. change (256 ^ N.of_nat (8 - 1 - 0)) with (256 ^ 7).
  assert (2 ^ 31 < 256 ^ 7) by done. rewrite N.div_small by lia. done.
Qed.
Lemma small_header bs : byte_string bs -> length bs = 8%nat -> bs !! 0%nat = Some 0 -> exists n, n <= 2 ^ 62 /\ be 8 n = bs.
Proof.
  intros Hb Hl H0. destruct bs as [|b bs]; [done|]. cbn [lookup list_lookup] in H0. injection H0 as ->. exists (be_value (0 :: bs)). split.
  - assert (E : be_value (0 :: bs) = be_value bs) by done. rewrite E. apply Forall_inv_tail in Hb. pose proof (be_value_bound _ Hb) as Hv.
    cbn [length] in Hl. unfold size in Hv. replace (length bs) with 7%nat in Hv by lia. change (N.of_nat 7) with 7 in Hv. assert (256 ^ 7 <= 2 ^ 62) by done. lia.
  - rewrite <- be_bytes_be. rewrite <- Hl at 1. by apply be_bytes_value.
Qed.
Lemma crash_header_lem H f us f' us' old0 old bs k : reachable H f us -> reachable H f' us' -> byte_string old0 ->
  F_Commit f old0 = Ok old -> F_commit_blocks f' = Ok bs -> (k <= 8)%nat ->
  let file := overwrite old (take k (concat bs)) in
  exists n, be 8 n = take k (be 8 (f_n f')) ++ drop k (be 8 (f_n f)) /\
    (size old < file_length n -> F_Restore file = UB) /\
    (file_length n <= size old -> exists g, F_Restore file = Ok g /\ f_n g = n /\
      forall R r i, is_height n R -> node n r i -> exists h, F_Read g (enc R r i) = Ok h /\ be 32 h = bytes_at old (file_offset n r i) 32).
Proof.
  intros Hr Hr' Ho Ec Eb Hk file. destruct (holds_some H f us Hr) as [ls Hh]. destruct (reachable_read H f us ls Hr Hh) as (Hfn & Hn & _).
  destruct (holds_some H f' us' Hr') as [ls' Hh']. destruct (reachable_read H f' us' ls' Hr' Hh') as (Hfn' & Hn' & _).
  pose proof (blocks_file H f' us' ls' bs Hr' Hh' Eb) as Ef.
  rewrite (layout_lem H f us ls old0 Hr Hh) in Ec. apply (f_equal (λ x, match x with Ok y => y | _ => [] end)) in Ec. cbn beta iota in Ec.
  assert (Hbo : byte_string old) by (rewrite <- Ec; apply Forall_app; split; [apply byte_file|by apply Forall_drop]).
  assert (Eold : exists t, old = be 8 (size ls) ++ t).
  { rewrite <- Ec. unfold merkle_file at 1, file_format. rewrite <- app_assoc. by eexists. }
  destruct Eold as [t Et]. assert (Enew : exists t', concat bs = be 8 (size ls') ++ t') by (rewrite Ef; unfold merkle_file, file_format; by eexists).
  destruct Enew as [t' Et'].
  assert (Efile : file = (take k (be 8 (size ls')) ++ drop k (be 8 (size ls))) ++ t).
  { unfold file, overwrite. rewrite Et, Et'. rewrite take_app_le by (rewrite be_length; lia). rewrite take_length, be_length, Nat.min_l by lia.
    rewrite drop_app_le by (rewrite be_length; lia). by rewrite app_assoc. }
  rewrite Hfn, Hfn'.
  destruct (small_header (take k (be 8 (size ls')) ++ drop k (be 8 (size ls)))) as (n & Hn62 & En).
  { apply Forall_app. split; [apply Forall_take|apply Forall_drop]; apply byte_be. }
  { rewrite app_length, take_length, drop_length, !be_length. lia. }
  { destruct k as [|k]; [by apply be_head|]. rewrite lookup_app_l by (rewrite take_length, be_length; lia). rewrite lookup_take by lia. by apply be_head. }
  rewrite <- En in Efile. exists n. split; [done|].
  assert (Hbt : byte_string t) by (rewrite Et in Hbo; by apply Forall_app in Hbo as [_ ?]).
  assert (Eso : size old = 8 + size t) by (rewrite Et, size_app, size_be; done).
  rewrite Efile. split; [intros Hs; apply open_short; [done|lia]|]. intros Hs.
  destruct (open_at n t Hbt Hn62 ltac:(lia)) as (g & Eg & Hgn & Hgr). exists g. split; [done|]. split; [done|].
  intros R r i HR Hi. destruct (Hgr R r i HR Hi) as (h & E1 & E2 & _). exists h. split; [done|]. rewrite E2. unfold bytes_at. f_equal.
  assert (Ha : exists a, N.to_nat (file_offset n r i) = (8 + a)%nat) by (unfold file_offset; eexists; rewrite N2Nat.inj_add; reflexivity).
  destruct Ha as [a ->]. rewrite Et. rewrite <- !drop_drop. rewrite !(drop_app_alt _ t); [done|by rewrite be_length|by rewrite be_length].
Qed.

(** Two histories with the same number of leaves. *)
Definition c11 : list leaf := [(7, false); (8, false); (9, false)].
Lemma ex_crash : exists f us f' us' old bs, reachable ex_H f us /\ reachable ex_H f' us' /\ f_n f = 3 /\ f_n f' = f_n f /\ byte_string [] /\
  F_Commit f [] = Ok old /\ F_commit_blocks f' = Ok bs /\ length (concat bs) = 136%nat /\ size old = 136.
Proof.
  destruct (step_ok ex_H (RamForest_new 0) [] [] w3 [] ltac:(constructor) holds_new) as (u0 & f & E0 & _ & _ & H1 & H2).
  { done. } { apply valid_nil. } { apply (bool_decide_unpack _). by vm_compute. }
  destruct (step_ok ex_H (RamForest_new 0) [] [] c11 [] ltac:(constructor) holds_new) as (u1 & f' & E1 & _ & _ & H3 & H4).
  { done. } { apply valid_nil. } { apply (bool_decide_unpack _). by vm_compute. }
  pose proof (layout_lem ex_H f _ _ [] H1 H2) as L1. pose proof (layout_lem ex_H f' _ _ [] H3 H4) as L2.
  assert (El : spec_remove [] [] ++ w3.*1 = [10; 11; 12]) by (by vm_compute). assert (El' : spec_remove [] [] ++ c11.*1 = [7; 8; 9]) by (by vm_compute).
  rewrite El in *. rewrite El' in *. unfold F_Commit in L2. apply bind_ok in L2 as (bs & Eb & _).
  eexists f, _, f', _, _, bs. split; [exact H1|]. split; [exact H3|]. pose proof (proj1 H2) as N1. pose proof (proj1 H4) as N2.
  split; [rewrite N1; done|]. split; [rewrite N1, N2; done|]. split; [constructor|]. split; [exact L1|]. split; [exact Eb|].
  pose proof (blocks_file ex_H f' _ _ bs H3 H4 Eb) as ->. rewrite drop_nil, app_nil_r. pose proof (file_format_size 3 (nh ex_H (leaf_at [7; 8; 9]))) as S1.
  pose proof (file_format_size 3 (nh ex_H (leaf_at [10; 11; 12]))) as S2. assert (E3 : file_length 3 = 136) by (vm_compute; reflexivity). rewrite E3 in *. 
  unfold merkle_file. change (size [7; 8; 9]) with 3. change (size [10; 11; 12]) with 3. split; [unfold size in S1; lia|exact S2].
Qed.
