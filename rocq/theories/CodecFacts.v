(** * CodecFacts: lemmas about CodecModel (proofs) *)
From Verif Require Import Base StateModel CodecModel PosFacts CodecSpec.
From Coq Require Import ZifyBool ZifyNat ZifyN.
Ltac Zify.zify_post_hook ::= Z.div_mod_to_equations.

(** ** Bytes *)
Lemma pow256_pos k : 0 < 256 ^ k.
Proof. pose proof (N.pow_nonzero 256 k). lia. Qed.
Lemma pow256_S k : 256 ^ (N.of_nat (S k)) = 256 * 256 ^ N.of_nat k.
Proof. rewrite Nat2N.inj_succ, N.pow_succ_r'. lia. Qed.

Lemma be_length k x : length (be k x) = k.
Proof. unfold be. by rewrite fmap_length, seq_length. Qed.

Lemma be_bytes_be k x : be_bytes k x = be k x.
Proof.
  revert x. induction k as [|k IH]; intros x; [done|].
  cbn [be_bytes]. rewrite IH. unfold be.
  rewrite seq_S, fmap_app. f_equal.
  - apply list_fmap_ext. intros i j Hj. apply lookup_seq in Hj.
    rewrite N.div_div; [|lia|pose proof (pow256_pos (N.of_nat (k - 1 - j))); lia].
    f_equal. f_equal. replace (S k - 1 - j)%nat with (S (k - 1 - j)) by lia.
    by rewrite pow256_S.
  - cbn. replace (k - 0 - k)%nat with 0%nat by lia. change (256 ^ N.of_nat 0) with 1.
    by rewrite N.div_1_r.
Qed.

Lemma be_bytes_length k x : length (be_bytes k x) = k.
Proof. rewrite be_bytes_be. apply be_length. Qed.
Lemma be_bytes_byte k x : byte_string (be_bytes k x).
Proof.
  rewrite be_bytes_be. unfold be, byte_string. apply Forall_fmap, Forall_forall.
  intros. simpl. lia.
Qed.

Lemma be_value_snoc bs b : be_value (bs ++ [b]) = be_value bs * 256 + b.
Proof. unfold be_value. by rewrite fold_left_app. Qed.

Lemma be_value_bytes k x : be_value (be_bytes k x) = x mod 256 ^ N.of_nat k.
Proof.
  revert x. induction k as [|k IH]; intros x; cbn [be_bytes].
  - change (256 ^ N.of_nat 0) with 1. by rewrite N.mod_1_r.
  - rewrite be_value_snoc, IH, pow256_S.
    pose proof (pow256_pos (N.of_nat k)). rewrite N.mod_mul_r by lia. lia.
Qed.

Lemma be_value_small k x : x < 256 ^ N.of_nat k -> be_value (be_bytes k x) = x.
Proof. intros. rewrite be_value_bytes. by apply N.mod_small. Qed.

Lemma be_value_be k x : x < 256 ^ N.of_nat k -> be_value (be k x) = x.
Proof. rewrite <- be_bytes_be. apply be_value_small. Qed.

Lemma be_value_bound bs : byte_string bs -> be_value bs < 256 ^ size bs.
Proof.
  induction bs as [|b bs IH] using rev_ind; intros Hb.
  - vm_compute. done.
  - apply Forall_app in Hb as [? Hb]. inversion_clear Hb.
    rewrite be_value_snoc. unfold size in *. rewrite app_length. simpl length.
    rewrite Nat.add_1_r, pow256_S. specialize (IH H). lia.
Qed.

Lemma be_bytes_value bs : byte_string bs -> be_bytes (length bs) (be_value bs) = bs.
Proof.
  induction bs as [|b bs IH] using rev_ind; intros Hb; [done|].
  apply Forall_app in Hb as [? Hb]. inversion_clear Hb.
  rewrite app_length. simpl length. rewrite Nat.add_1_r. cbn [be_bytes].
  rewrite be_value_snoc.
  replace ((be_value bs * 256 + b) / 256) with (be_value bs) by lia.
  replace ((be_value bs * 256 + b) mod 256) with b by lia. by rewrite IH.
Qed.

Lemma WriteBE32_be x : x < 256 ^ 4 -> WriteBE32 x = be 4 x.
Proof. intros. unfold WriteBE32. rewrite be_bytes_be. f_equal. apply N.mod_small. done. Qed.

Lemma bind_be_cons k x xs : (x :: xs) ≫= be k = be k x ++ (xs ≫= be k).
Proof. done. Qed.

(** ** Reading *)
Lemma size_app {A} (a b : list A) : size (a ++ b) = size a + size b.
Proof. unfold size. rewrite app_length. lia. Qed.

Lemma read_bytes_app a b c : read_bytes (a ++ b ++ c) (size a) (size b) = Ok b.
Proof.
  unfold read_bytes. rewrite !size_app. destruct (N.leb_spec (size a + size b) (size a + (size b + size c))); [|lia].
  unfold size. rewrite !Nat2N.id. by rewrite drop_app, take_app.
Qed.

Lemma read_bytes_inv bytes off len : off + len <= size bytes ->
  exists a b c, bytes = a ++ b ++ c /\ size a = off /\ size b = len /\ read_bytes bytes off len = Ok b.
Proof.
  intros. exists (take (N.to_nat off) bytes), (take (N.to_nat len) (drop (N.to_nat off) bytes)),
    (drop (N.to_nat len) (drop (N.to_nat off) bytes)).
  rewrite !take_drop. unfold size in *. rewrite !take_length, drop_length.
  repeat split; try lia. unfold read_bytes, size.
  destruct (N.leb_spec (off + len) (N.of_nat (length bytes))); [done|lia].
Qed.

(** [rd] reads items of [w] bytes. *)
Definition reader (rd : list N -> N -> res N) (w : N) : Prop :=
  forall bytes off, rd bytes off = let* b := read_bytes bytes off w in Ok (be_value b).
Lemma reader32 : reader ReadBE32 4.
Proof. done. Qed.
Lemma reader_hash : reader read_hash 32.
Proof. done. Qed.

Lemma rd_app rd w a b c : reader rd w -> size b = w -> rd (a ++ b ++ c) (size a) = Ok (be_value b).
Proof. intros Hr <-. rewrite Hr, read_bytes_app. done. Qed.

Lemma read_many_app rd k xs a c fuel :
  reader rd (N.of_nat k) -> fits (N.of_nat k) xs -> (length xs <= fuel)%nat ->
  read_many fuel rd (N.of_nat k) (a ++ (xs ≫= be k) ++ c) (size xs) (size a) = Ok xs.
Proof.
  intros Hr. revert a fuel. induction xs as [|x xs IH]; intros a fuel Hf Hl.
  - destruct fuel; done.
  - inversion_clear Hf. destruct fuel as [|fuel]; [simpl in Hl; lia|].
    cbn [read_many]. unfold size at 1. simpl length.
    destruct (N.eqb_spec (N.of_nat (S (length xs))) 0); [lia|].
    rewrite bind_be_cons. rewrite <- app_assoc, (rd_app rd (N.of_nat k)); [|done|unfold size; by rewrite be_length].
    cbn [bind]. rewrite be_value_be by done.
    replace (size (x :: xs) - 1) with (size xs) by (unfold size; simpl length; lia).
    replace (size a + N.of_nat k) with (size (a ++ be k x)).
    2: { rewrite size_app. unfold size. by rewrite be_length. }
    rewrite app_assoc, IH; [|done|simpl in Hl; lia]. done.
Qed.

Lemma read_many_inv rd k num fuel bytes off :
  (0 < k)%nat -> reader rd (N.of_nat k) -> byte_string bytes ->
  off + N.of_nat k * num <= size bytes -> (N.to_nat num <= fuel)%nat ->
  exists xs a c, read_many fuel rd (N.of_nat k) bytes num off = Ok xs /\ size xs = num /\
    fits (N.of_nat k) xs /\ bytes = a ++ (xs ≫= be k) ++ c /\ size a = off.
Proof.
  intros Hk Hr Hb. revert num off. induction fuel as [|fuel IH]; intros num off Hs Hf.
  - replace num with 0 in * by lia. exists [], (take (N.to_nat off) bytes), (drop (N.to_nat off) bytes).
    simpl. rewrite take_drop. unfold size in *. rewrite take_length. repeat split; try done; [constructor|lia].
  - cbn [read_many]. destruct (N.eqb_spec num 0) as [->|].
    + exists [], (take (N.to_nat off) bytes), (drop (N.to_nat off) bytes).
      simpl. rewrite take_drop. unfold size in *. rewrite take_length. repeat split; try done; [constructor|lia].
    + destruct (read_bytes_inv bytes off (N.of_nat k)) as (a & b & c & Hbytes & Ha & Hbs & Hrd); [nia|].
      rewrite Hr, Hrd. cbn [bind].
      destruct (IH (num - 1) (off + N.of_nat k)) as (xs & a' & c' & Hxs & Hn & Hfit & Hb' & Ha'); [nia|lia|].
      rewrite Hxs. cbn [bind].
      assert (Hbb : byte_string b).
      { rewrite Hbytes in Hb. apply Forall_app in Hb as [_ Hb]. by apply Forall_app in Hb as [Hb _]. }
      exists (be_value b :: xs), a, c'. split_and!; [done| | | |done].
      * unfold size in *. simpl length. lia.
      * constructor; [|done]. rewrite <- Hbs. by apply be_value_bound.
      * rewrite bind_be_cons. assert (Hbl : length b = k) by (unfold size in *; lia).
        rewrite <- be_bytes_be, <- Hbl, be_bytes_value by done.
        assert (Hc : c = (xs ≫= be k) ++ c').
        { rewrite Hb' in Hbytes at 1. rewrite (app_assoc a b c) in Hbytes.
          apply app_inj_1 in Hbytes as [_ ->]; [done|].
          rewrite app_length. unfold size in *. lia. }
        rewrite Hbytes at 1. rewrite Hc, <- !app_assoc, Hbl. done.
Qed.

Lemma bind_be_length k (xs : list N) : size (xs ≫= be k) = N.of_nat k * size xs.
Proof.
  induction xs as [|x xs IH]; [unfold size; simpl; lia|]. rewrite bind_be_cons.
  rewrite size_app.  rewrite IH. unfold size. rewrite be_length. simpl length. lia.
Qed.
Lemma size_be k x : size (be k x) = N.of_nat k.
Proof. unfold size. by rewrite be_length. Qed.

Lemma concat_WriteBE32 xs : fits 4 xs -> concat (WriteBE32 <$> xs) = xs ≫= be 4.
Proof.
  induction 1 as [|x xs Hx Hf IH]; [done|]. rewrite bind_be_cons; cbn [fmap list_fmap concat].
  by rewrite WriteBE32_be, <- IH by done.
Qed.
Lemma concat_hash_bytes xs : concat (hash_bytes <$> xs) = xs ≫= be 32.
Proof.
  induction xs as [|x xs IH]; [done|]. rewrite bind_be_cons; cbn [fmap list_fmap concat].
  unfold hash_bytes at 1. rewrite be_bytes_be. f_equal. apply IH.
Qed.

Lemma proof_format_size ts hs : size (proof_format ts hs) = 8 + 4 * size ts + 32 * size hs.
Proof. unfold proof_format. rewrite !size_app, !size_be, !bind_be_length. lia. Qed.
Lemma undo_format_size a ts hs : size (undo_format a ts hs) = 8 + 4 * size ts + 32 * size hs.
Proof. unfold undo_format. rewrite !size_app, !size_be, !bind_be_length. lia. Qed.

(** ** Serialize *)
Lemma bp_Serialize_ok p : fits 4 (m_targets p) ->
  8 + 4 * size (m_targets p) + 32 * size (m_proof p) <= int_max ->
  bp_Serialize p = Ok (proof_format (m_targets p) (m_proof p)).
Proof.
  intros Hf Hs. unfold bp_Serialize.
  destruct (N.ltb_spec int_max (8 + size (m_targets p) * 4 + size (m_proof p) * 32)); [lia|].
  f_equal. unfold proof_format. rewrite concat_WriteBE32, concat_hash_bytes by done.
  unfold int_max in *. change (256 ^ 4) with 4294967296.
  rewrite !WriteBE32_be by (change (256 ^ 4) with 4294967296; lia). done.
Qed.
Lemma ub_Serialize_ok u : fits 4 (m_deleted_positions u) -> m_num_additions u < 256 ^ 4 ->
  8 + 4 * size (m_deleted_positions u) + 32 * size (m_deleted_hashes u) <= int_max ->
  ub_Serialize u = Ok (undo_format (m_num_additions u) (m_deleted_positions u) (m_deleted_hashes u)).
Proof.
  intros Hf Ha Hs. unfold ub_Serialize.
  destruct (N.ltb_spec int_max (8 + size (m_deleted_positions u) * 4 + size (m_deleted_hashes u) * 32)); [lia|].
  f_equal. unfold undo_format. rewrite concat_WriteBE32, concat_hash_bytes by done.
  unfold int_max in *.
  rewrite !WriteBE32_be by (try done; change (256 ^ 4) with 4294967296; lia). done.
Qed.

(** ** Unserialize *)
Lemma ReadBE32_app a x c : x < 256 ^ 4 -> ReadBE32 (a ++ be 4 x ++ c) (size a) = Ok x.
Proof.
  intros. rewrite (rd_app _ 4); [|done|apply size_be]. rewrite be_value_be by done. done.
Qed.
Lemma ReadBE32_hd x c : x < 256 ^ 4 -> ReadBE32 (be 4 x ++ c) 0 = Ok x.
Proof. apply (ReadBE32_app []). Qed.
Lemma ReadBE32_hd2 y x c : x < 256 ^ 4 -> ReadBE32 (be 4 y ++ be 4 x ++ c) 4 = Ok x.
Proof. apply (ReadBE32_app (be 4 y)). Qed.

Lemma read_body hd ts hs fuel : size hd = 8 -> fits 4 ts -> fits 32 hs ->
  (length ts <= fuel)%nat -> (length hs <= fuel)%nat ->
  read_many fuel ReadBE32 4 (hd ++ (ts ≫= be 4) ++ (hs ≫= be 32)) (size ts) 8 = Ok ts /\
  read_many fuel read_hash 32 (hd ++ (ts ≫= be 4) ++ (hs ≫= be 32)) (size hs) (8 + 4 * size ts) = Ok hs.
Proof.
  intros Hhd Ht Hh Hl1 Hl2. split.
  - rewrite <- Hhd. apply (read_many_app ReadBE32 4); done.
  - replace (8 + 4 * size ts) with (size (hd ++ (ts ≫= be 4))).
    2: { rewrite size_app, bind_be_length. lia. }
    rewrite app_assoc, <- (app_nil_r (hs ≫= be 32)). apply (read_many_app read_hash 32); done.
Qed.

Lemma bp_Unserialize_format p ts hs :
  fits 4 ts -> fits 32 hs -> size (proof_format ts hs) <= int_max ->
  bp_Unserialize p (proof_format ts hs) =
  Ok (true, BatchProofRaw ts (sortN (m_sorted_targets p ++ ts)) hs).
Proof.
  intros Ht Hh Hs. unfold bp_Unserialize. pose proof (proof_format_size ts hs) as Hsz.
  destruct (N.ltb_spec (size (proof_format ts hs)) 8); [lia|].
  unfold int_max in *.
  assert (Hl : (length ts < length (proof_format ts hs))%nat /\ (length hs < length (proof_format ts hs))%nat)
    by (unfold size in *; lia).
  unfold proof_format at 1 2.
  rewrite ReadBE32_hd by (change (256 ^ 4) with 4294967296; unfold size in *; lia). cbn [bind].
  rewrite ReadBE32_hd2 by (change (256 ^ 4) with 4294967296; unfold size in *; lia). cbn [bind].
  change (N.of_nat (length ts)) with (size ts). change (N.of_nat (length hs)) with (size hs).
  rewrite w64_small by (unfold two64; lia).
  destruct (N.eqb_spec (size (proof_format ts hs)) (8 + size ts * 4 + size hs * 32)); [|lia]. cbn [negb].
  destruct (read_body (be 4 (size ts) ++ be 4 (size hs)) ts hs (S (length (proof_format ts hs)))) as [E1 E2];
    [by rewrite size_app, !size_be|done|done|lia|lia|].
  rewrite <- app_assoc in E1, E2. fold (proof_format ts hs) in E1, E2. 
  change (be 4 (size ts) ++ be 4 (size hs) ++ (ts ≫= be 4) ++ (hs ≫= be 32)) with (proof_format ts hs) in *.
  rewrite E1. cbn [bind]. rewrite E2.
  cbn [bind]. destruct (N.ltb_spec 2147483647 (8 + 4 * size ts + 32 * size hs)); [lia|].
  rewrite Hsz, N.eqb_refl. done.
Qed.

Lemma app_eq_split {A} (a b c d : list A) : a ++ b = c ++ d -> size a = size c -> a = c /\ b = d.
Proof. intros H1 H2. apply app_inj_1 in H1; [done|]. unfold size in *. lia. Qed.

Lemma read_header bytes : byte_string bytes -> 8 <= size bytes ->
  exists x y c, bytes = be 4 x ++ be 4 y ++ c /\ x < 256 ^ 4 /\ y < 256 ^ 4.
Proof.
  intros Hb Hs. destruct (read_many_inv ReadBE32 4 2 3 bytes 0) as (xs & a & c & _ & Hn & Hf & He & Ha);
    [lia|done|done|lia|lia|].
  destruct xs as [|x [|y [|]]]; try (unfold size in Hn; simpl in Hn; lia).
  destruct a; [|unfold size in Ha; simpl in Ha; lia].
  inversion_clear Hf. inversion_clear H0. exists x, y, c. rewrite !bind_be_cons, !app_nil_l, <- !app_assoc in He. done.
Qed.


Lemma bp_Unserialize_spec p bytes : byte_string bytes -> size bytes <= int_max ->
  (exists ts hs, fits 4 ts /\ fits 32 hs /\ bytes = proof_format ts hs) \/
  ((forall ts hs, fits 4 ts -> fits 32 hs -> bytes <> proof_format ts hs) /\
   bp_Unserialize p bytes = Ok (false, p)).
Proof.
  intros Hb Hs. destruct (N.lt_ge_cases (size bytes) 8) as [Hlt|Hge].
  { right. split.
    - intros ts hs _ _ ->. rewrite proof_format_size in Hlt. lia.
    - unfold bp_Unserialize. destruct (N.ltb_spec (size bytes) 8); [done|lia]. }
  destruct (read_header bytes Hb Hge) as (x & y & c & -> & Hx & Hy).
  unfold bp_Unserialize. destruct (N.ltb_spec (size (be 4 x ++ be 4 y ++ c)) 8); [lia|].
  rewrite ReadBE32_hd, ReadBE32_hd2 by done. cbn [bind].
  change (256 ^ 4) with 4294967296 in *.
  rewrite w64_small by (unfold two64; lia).
  destruct (N.eqb_spec (size (be 4 x ++ be 4 y ++ c)) (8 + x * 4 + y * 32)) as [He|He]; cbn [negb].
  - left. rewrite !size_app, !size_be in He.
    apply Forall_app in Hb as [_ Hb]. apply Forall_app in Hb as [_ Hb].
    destruct (read_many_inv ReadBE32 4 x (N.to_nat x) c 0) as (ts & a1 & c1 & _ & Hn1 & Hf1 & He1 & Ha1);
      [lia|done|done|lia|lia|].
    destruct a1; [|unfold size in Ha1; simpl in Ha1; lia]. simpl in He1. subst c.
    apply Forall_app in Hb as [_ Hb]. rewrite size_app, bind_be_length, Hn1 in He.
    destruct (read_many_inv read_hash 32 y (N.to_nat y) c1 0) as (hs & a2 & c2 & _ & Hn2 & Hf2 & He2 & Ha2);
      [lia|done|done|lia|lia|].
    destruct a2; [|unfold size in Ha2; simpl in Ha2; lia]. simpl in He2. subst c1.
    rewrite size_app, bind_be_length, Hn2 in He.
    assert (c2 = []) as -> by (destruct c2; [done|unfold size in He; cbn [length] in He; lia]).
    exists ts, hs. split_and!; [done|done|]. unfold proof_format.
    change (N.of_nat (length ts)) with (size ts). change (N.of_nat (length hs)) with (size hs).
    by rewrite Hn1, Hn2, app_nil_r.
  - right. split; [|done]. intros ts hs Ht Hh Heq.
    assert (Hsz := proof_format_size ts hs). rewrite <- Heq in Hsz.
    unfold proof_format in Heq.
    apply app_eq_split in Heq as [H1 Heq]; [|by rewrite !size_be].
    apply app_eq_split in Heq as [H2 _]; [|by rewrite !size_be].
    unfold int_max in *.
    apply (f_equal be_value) in H1, H2.
    change (N.of_nat (length ts)) with (size ts) in *. change (N.of_nat (length hs)) with (size hs) in *.
    rewrite !be_value_be in H1, H2 by (change (256 ^ N.of_nat 4) with 4294967296; lia). lia.
Qed.

Lemma ub_Unserialize_format u adds ts hs :
  adds < 256 ^ 4 -> fits 4 ts -> fits 32 hs -> size ts = size hs -> size (undo_format adds ts hs) <= int_max ->
  ub_Unserialize u (undo_format adds ts hs) = Ok (true, UndoBatch adds ts hs).
Proof.
  intros Ha Ht Hh Heq Hs. unfold ub_Unserialize. pose proof (undo_format_size adds ts hs) as Hsz.
  destruct (N.ltb_spec (size (undo_format adds ts hs)) 8); [lia|].
  unfold int_max in *.
  assert (Hl : (length ts < length (undo_format adds ts hs))%nat /\ (length hs < length (undo_format adds ts hs))%nat)
    by (unfold size in *; lia).
  unfold undo_format at 1 2.
  rewrite ReadBE32_hd by done. cbn [bind].
  rewrite ReadBE32_hd2 by (change (256 ^ 4) with 4294967296; unfold size in *; lia). cbn [bind].
  change (N.of_nat (length ts)) with (size ts).
  rewrite N.mod_small by (unfold two32; lia).
  destruct (N.eqb_spec (size (undo_format adds ts hs)) (8 + 4 * size ts + 32 * size ts)); [|lia]. cbn [negb].
  destruct (read_body (be 4 adds ++ be 4 (size ts)) ts hs (S (length (undo_format adds ts hs)))) as [E1 E2];
    [by rewrite size_app, !size_be|done|done|lia|lia|].
  rewrite <- app_assoc in E1, E2.
  change (be 4 adds ++ be 4 (size ts) ++ (ts ≫= be 4) ++ (hs ≫= be 32)) with (undo_format adds ts hs) in *.
  rewrite E1. cbn [bind]. rewrite <- Heq in E2. rewrite E2.
  cbn [bind]. destruct (N.ltb_spec 2147483647 (8 + 4 * size ts + 32 * size ts)); [lia|].
  rewrite Hsz, <- Heq, N.eqb_refl. done.
Qed.

(** What the undo decoder does when the true expected length fits in 32 bits. *)
Lemma ub_Unserialize_spec u bytes : byte_string bytes -> size bytes <= int_max ->
  (forall adds k c, bytes = be 4 adds ++ be 4 k ++ c -> k < 256 ^ 4 -> 8 + 36 * k < two32) ->
  (exists adds ts hs, adds < 256 ^ 4 /\ fits 4 ts /\ fits 32 hs /\ size ts = size hs /\
     bytes = undo_format adds ts hs) \/
  ((forall adds ts hs, fits 4 ts -> fits 32 hs -> size ts = size hs -> bytes <> undo_format adds ts hs) /\
   exists adds, ub_Unserialize u bytes = Ok (false, UndoBatch adds (m_deleted_positions u) (m_deleted_hashes u))).
Proof.
  intros Hb Hs Hk. destruct (N.lt_ge_cases (size bytes) 8) as [Hlt|Hge].
  { right. split.
    - intros adds ts hs _ _ _ ->. rewrite undo_format_size in Hlt. lia.
    - exists (m_num_additions u). unfold ub_Unserialize. destruct (N.ltb_spec (size bytes) 8); [by destruct u|lia]. }
  destruct (read_header bytes Hb Hge) as (x & y & c & -> & Hx & Hy).
  specialize (Hk x y c eq_refl Hy).
  unfold ub_Unserialize. destruct (N.ltb_spec (size (be 4 x ++ be 4 y ++ c)) 8); [lia|].
  rewrite ReadBE32_hd, ReadBE32_hd2 by done. cbn [bind].
  rewrite N.mod_small by lia.
  destruct (N.eqb_spec (size (be 4 x ++ be 4 y ++ c)) (8 + 4 * y + 32 * y)) as [He|He]; cbn [negb].
  - left. rewrite !size_app, !size_be in He.
    apply Forall_app in Hb as [_ Hb]. apply Forall_app in Hb as [_ Hb].
    destruct (read_many_inv ReadBE32 4 y (N.to_nat y) c 0) as (ts & a1 & c1 & _ & Hn1 & Hf1 & He1 & Ha1);
      [lia|done|done|lia|lia|].
    destruct a1; [|unfold size in Ha1; simpl in Ha1; lia]. simpl in He1. subst c.
    apply Forall_app in Hb as [_ Hb]. rewrite size_app, bind_be_length, Hn1 in He.
    destruct (read_many_inv read_hash 32 y (N.to_nat y) c1 0) as (hs & a2 & c2 & _ & Hn2 & Hf2 & He2 & Ha2);
      [lia|done|done|lia|lia|].
    destruct a2; [|unfold size in Ha2; simpl in Ha2; lia]. simpl in He2. subst c1.
    rewrite size_app, bind_be_length, Hn2 in He.
    assert (c2 = []) as -> by (destruct c2; [done|unfold size in He; cbn [length] in He; lia]).
    exists x, ts, hs. split_and!; [done|done|done|lia|]. unfold undo_format.
    change (N.of_nat (length ts)) with (size ts).
    by rewrite Hn1, app_nil_r.
  - right. split; [|by exists x]. intros adds ts hs Ht Hh Hsame Heq.
    assert (Hsz := undo_format_size adds ts hs). rewrite <- Heq in Hsz.
    unfold undo_format in Heq.
    apply app_eq_split in Heq as [H1 Heq]; [|by rewrite !size_be].
    apply app_eq_split in Heq as [H2 _]; [|by rewrite !size_be].
    unfold int_max in *.
    apply (f_equal be_value) in H2.
    change (N.of_nat (length ts)) with (size ts) in *.
    rewrite !be_value_be in H2 by (try done; change (256 ^ N.of_nat 4) with 4294967296; lia). lia.
Qed.

(** ** The property lemmas *)
Lemma bp_roundtrip ts hs :
  fits 4 ts -> fits 32 hs -> 8 + 4 * size ts + 32 * size hs < 2 ^ 31 ->
  exists bytes, bp_Serialize (BatchProof ts hs) = Ok bytes /\ bytes = proof_format ts hs /\
    bp_Unserialize BatchProofNull bytes = Ok (true, BatchProof ts hs).
Proof.
  intros Ht Hh Hs. change (2 ^ 31) with (int_max + 1) in Hs.
  exists (proof_format ts hs). split_and!; [|done|].
  - apply (bp_Serialize_ok (BatchProof ts hs)); [done|unfold BatchProof; cbn [m_targets m_proof]; lia].
  - rewrite bp_Unserialize_format; [done..|]. rewrite proof_format_size. lia.
Qed.

Lemma bp_canonical p bytes : byte_string bytes -> size bytes < 2 ^ 31 ->
  exists b p', bp_Unserialize p bytes = Ok (b, p') /\
    (b = true <-> exists ts hs, fits 4 ts /\ fits 32 hs /\ bytes = proof_format ts hs) /\
    (b = true -> bp_Serialize p' = Ok bytes) /\
    (b = false -> p' = p).
Proof.
  intros Hb Hs. change (2 ^ 31) with (int_max + 1) in Hs.
  destruct (bp_Unserialize_spec p bytes) as [(ts & hs & Ht & Hh & ->)|[Hno Hf]]; [done|lia| |].
  - rewrite bp_Unserialize_format by (done || lia). eexists _, _. split_and!; [done|naive_solver| |done].
    intros _. rewrite bp_Serialize_ok; [done|done|]. cbn [m_targets m_proof]. rewrite proof_format_size in Hs. lia.
  - rewrite Hf. eexists _, _. split_and!; [done| |done|done].
    split; [done|]. intros (ts & hs & Ht & Hh & He). by destruct (Hno ts hs).
Qed.

Lemma proof_format_header ts hs : fits 4 ts -> fits 32 hs ->
  proof_format ts hs = be 4 (size ts) ++ be 4 (size hs) ++ (ts ≫= be 4) ++ (hs ≫= be 32).
Proof. done. Qed.

Lemma bp_accept_length p x y c : x < 2 ^ 32 -> y < 2 ^ 32 -> byte_string c ->
  let bytes := be 4 x ++ be 4 y ++ c in size bytes < 2 ^ 31 ->
  exists b p', bp_Unserialize p bytes = Ok (b, p') /\
    (b = true <-> size bytes = 8 + 4 * x + 32 * y).
Proof.
  intros Hx Hy Hc bytes Hs.
  assert (Hb : byte_string bytes).
  { unfold bytes. rewrite <- !be_bytes_be. apply Forall_app_2; [|apply Forall_app_2]; [apply be_bytes_byte..|done]. }
  destruct (bp_canonical p bytes Hb Hs) as (b & p' & Hu & Hiff & _). exists b, p'. split; [done|].
  split.
  - intros (ts & hs & Ht & Hh & He)%Hiff. assert (Hsz := proof_format_size ts hs).
    rewrite <- He in Hsz. unfold bytes, proof_format in He.
    apply app_eq_split in He as [H1 He]; [|by rewrite !size_be].
    apply app_eq_split in He as [H2 _]; [|by rewrite !size_be].
    change (2 ^ 31) with 2147483648 in *. change (2 ^ 32) with 4294967296 in *.
    apply (f_equal be_value) in H1, H2.
    change (N.of_nat (length ts)) with (size ts) in *. change (N.of_nat (length hs)) with (size hs) in *.
    rewrite !be_value_be in H1, H2 by (change (256 ^ N.of_nat 4) with 4294967296; lia). lia.
  - intros He. revert Hu. unfold bp_Unserialize. destruct (N.ltb_spec (size bytes) 8); [lia|].
    unfold bytes at 1 2. rewrite ReadBE32_hd, ReadBE32_hd2 by done. cbn [bind].
    change (2 ^ 31) with 2147483648 in *. change (2 ^ 32) with 4294967296 in *.
    rewrite w64_small by (unfold two64; lia).
    destruct (N.eqb_spec (size bytes) (8 + x * 4 + y * 32)); [|lia]. cbn [negb].
    destruct (read_many _ ReadBE32 _ _ _ _); try done. cbn [bind].
    destruct (read_many _ read_hash _ _ _ _); try done. cbn [bind].
    destruct (_ <? _); [done|]. destruct (assert_ _); try done. cbn [bind]. congruence.
Qed.

Lemma bp_injective_32 p q bytes : fits 4 (m_targets p) -> fits 4 (m_targets q) ->
  fits 32 (m_proof p) -> fits 32 (m_proof q) ->
  bp_Serialize p = Ok bytes -> bp_Serialize q = Ok bytes ->
  m_targets p = m_targets q /\ m_proof p = m_proof q.
Proof.
  intros H1 H2 H3 H4 Hp Hq.
  assert (Hsp : size (proof_format (m_targets p) (m_proof p)) <= int_max /\
                bytes = proof_format (m_targets p) (m_proof p)).
  { rewrite proof_format_size. unfold bp_Serialize in Hp.
    destruct (N.ltb_spec int_max (8 + size (m_targets p) * 4 + size (m_proof p) * 32)); [done|].
    split; [lia|]. rewrite (bp_Serialize_ok p) in Hp || idtac. 
    assert (Hp' := bp_Serialize_ok p H1 ltac:(lia)). unfold bp_Serialize in Hp'.
    destruct (N.ltb_spec int_max (8 + size (m_targets p) * 4 + size (m_proof p) * 32)); [lia|]. congruence. }
  assert (Hsq : size (proof_format (m_targets q) (m_proof q)) <= int_max /\
                bytes = proof_format (m_targets q) (m_proof q)).
  { rewrite proof_format_size. unfold bp_Serialize in Hq.
    destruct (N.ltb_spec int_max (8 + size (m_targets q) * 4 + size (m_proof q) * 32)); [done|].
    split; [lia|].
    assert (Hq' := bp_Serialize_ok q H2 ltac:(lia)). unfold bp_Serialize in Hq'.
    destruct (N.ltb_spec int_max (8 + size (m_targets q) * 4 + size (m_proof q) * 32)); [lia|]. congruence. }
  destruct Hsp as [Hsp ->], Hsq as [Hsq He].
  pose proof (bp_Unserialize_format BatchProofNull _ _ H1 H3 Hsp) as Up.
  pose proof (bp_Unserialize_format BatchProofNull _ _ H2 H4 Hsq) as Uq.
  rewrite He, Uq in Up. by inversion Up.
Qed.

Lemma bp_unserialize_fresh p bytes p' : m_sorted_targets p = [] ->
  bp_Unserialize p bytes = Ok (true, p') -> m_sorted_targets p' = sortN (m_targets p').
Proof.
  intros Hp. unfold bp_Unserialize.
  destruct (_ <? 8); [done|]. destruct (ReadBE32 _ 0); try done. cbn [bind].
  destruct (ReadBE32 _ 4); try done. cbn [bind]. destruct (negb _); [done|].
  destruct (read_many _ ReadBE32 _ _ _ _); try done. cbn [bind].
  destruct (read_many _ read_hash _ _ _ _); try done. cbn [bind].
  destruct (_ <? _); [done|]. destruct (assert_ _); try done. cbn [bind].
  rewrite Hp. intros [=<-]. done.
Qed.

Lemma ub_roundtrip u adds ts hs :
  adds < 2 ^ 32 -> fits 4 ts -> fits 32 hs -> length ts = length hs -> 8 + 36 * size ts < 2 ^ 31 ->
  exists bytes, ub_Serialize (UndoBatch adds ts hs) = Ok bytes /\ bytes = undo_format adds ts hs /\
    ub_Unserialize u bytes = Ok (true, UndoBatch adds ts hs).
Proof.
  intros Ha Ht Hh Hl Hs. change (2 ^ 31) with (int_max + 1) in Hs. change (2 ^ 32) with (256 ^ 4) in Ha.
  assert (size ts = size hs) by (unfold size; lia).
  exists (undo_format adds ts hs). split_and!; [|done|].
  - apply (ub_Serialize_ok (UndoBatch adds ts hs)); cbn [m_deleted_positions m_deleted_hashes m_num_additions]; [done|done|lia].
  - apply ub_Unserialize_format; try done. rewrite undo_format_size. lia.
Qed.

(** With a header count small enough not to wrap, the undo decoder is exact. *)
Lemma ub_canonical_small u adds k c : adds < 2 ^ 32 -> k < 2 ^ 26 -> byte_string c ->
  let bytes := be 4 adds ++ be 4 k ++ c in size bytes < 2 ^ 31 ->
  exists b u', ub_Unserialize u bytes = Ok (b, u') /\
    (b = true <-> size bytes = 8 + 36 * k) /\
    (b = true -> ub_Serialize u' = Ok bytes) /\
    (b = false -> m_deleted_positions u' = m_deleted_positions u /\ m_deleted_hashes u' = m_deleted_hashes u).
Proof.
  intros Ha Hk Hc bytes Hs. change (2 ^ 31) with (int_max + 1) in Hs. change (2 ^ 32) with (256 ^ 4) in Ha.
  change (2 ^ 26) with 67108864 in Hk.
  assert (Hb : byte_string bytes).
  { unfold bytes. rewrite <- !be_bytes_be. apply Forall_app_2; [|apply Forall_app_2]; [apply be_bytes_byte..|done]. }
  assert (Hk4 : k < 256 ^ 4) by (change (256 ^ 4) with 4294967296; lia).
  destruct (ub_Unserialize_spec u bytes) as [(a' & ts & hs & Ha' & Ht & Hh & Hl & He)|[Hno [a' Hf]]]; [done|lia| | |].
  - intros a1 k1 c1 He Hk1. unfold bytes in He.
    apply app_eq_split in He as [H1 He]; [|by rewrite !size_be].
    apply app_eq_split in He as [H2 _]; [|by rewrite !size_be].
    apply (f_equal be_value) in H2. rewrite !be_value_be in H2 by done. subst k1. unfold two32. lia.
  - rewrite He. rewrite ub_Unserialize_format; try done; [|rewrite <- He; lia].
    assert (Hsz := undo_format_size a' ts hs). rewrite <- He in Hsz.
    eexists _, _. split_and!; [done| | |done].
    + split; [|done]. intros _. rewrite <- He.
      unfold bytes, undo_format in He.
      apply app_eq_split in He as [H1 He]; [|by rewrite !size_be].
      apply app_eq_split in He as [H2 _]; [|by rewrite !size_be].
      apply (f_equal be_value) in H2. unfold int_max in *.
      change (N.of_nat (length ts)) with (size ts) in *.
      rewrite !be_value_be in H2 by (try done; change (256 ^ N.of_nat 4) with 4294967296; lia). lia.
    + intros _. rewrite ub_Serialize_ok; try done. cbn [m_deleted_positions m_deleted_hashes]. lia.
  - rewrite Hf. eexists _, _. split_and!; [done| |done|done].
    split; [done|]. intros Hsz. exfalso. revert Hf. unfold ub_Unserialize.
    destruct (N.ltb_spec (size bytes) 8); [lia|].
    unfold bytes at 1 2. rewrite ReadBE32_hd, ReadBE32_hd2 by done. cbn [bind].
    rewrite N.mod_small by (unfold two32; lia).
    destruct (N.eqb_spec (size bytes) (8 + 4 * k + 32 * k)); [|lia]. cbn [negb].
    destruct (read_many _ ReadBE32 _ _ _ _); try done. cbn [bind].
    destruct (read_many _ read_hash _ _ _ _); try done. cbn [bind].
    destruct (_ <? _); [done|]. destruct (assert_ _); try done.
Qed.

Lemma vec_eqb_eq a b : vec_eqb a b = true <-> a = b.
Proof.
  revert b. induction a as [|x a IH]; intros [|y b]; simpl; try (split; [done|done]).
  rewrite andb_true_iff, N.eqb_eq, IH. naive_solver.
Qed.
Lemma bp_eqb_iff p q : bp_eqb p q = true <-> m_targets p = m_targets q /\ m_proof p = m_proof q.
Proof.
  unfold bp_eqb. rewrite !andb_true_iff, !N.eqb_eq, !vec_eqb_eq. split; [tauto|].
  intros [-> ->]. done.
Qed.
Lemma ub_eqb_iff u v : ub_eqb u v = true <-> u = v.
Proof.
  unfold ub_eqb. rewrite !andb_true_iff, !N.eqb_eq, !vec_eqb_eq.
  destruct u, v; simpl. split.
  - intros [[[[-> _] _] ->] ->]. done.
  - intros [= -> -> ->]. done.
Qed.
