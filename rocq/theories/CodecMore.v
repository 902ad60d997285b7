(** * CodecMore: decoding of undo batches, all headers (proofs) *)
From Verif Require Import Base CodecModel CodecSpec CodecFacts RowFacts.
From Coq Require Import ZifyBool ZifyNat ZifyN.
Ltac Zify.zify_post_hook ::= idtac.

Lemma read_many_short rd w bytes : reader rd w -> 0 < w -> forall fuel num off, 0 < num -> size bytes < off + w * num ->
  (N.to_nat (size bytes - off) < fuel)%nat -> read_many fuel rd w bytes num off = UB.
Proof.
  intros Hrd Hw. induction fuel as [|fuel IH]; intros num off Hn Hs Hf; [lia|]. cbn [read_many]. destruct (N.eqb_spec num 0); [lia|].
  rewrite Hrd. unfold read_bytes. destruct (N.leb_spec (off + w) (size bytes)) as [Hle|]; [|done]. cbn [bind].
  rewrite IH; [done| |nia|lia]. destruct (N.eq_dec num 1) as [->|]; lia.
Qed.
Lemma read_many_long rd w bytes : reader rd w -> 0 < w -> forall fuel num off, off + w * num <= size bytes ->
  (N.to_nat (size bytes - off) < fuel)%nat -> exists xs, read_many fuel rd w bytes num off = Ok xs.
Proof.
  intros Hrd Hw. induction fuel as [|fuel IH]; intros num off Hs Hf; [lia|]. cbn [read_many]. destruct (N.eqb_spec num 0); [by eexists|].
  rewrite Hrd. unfold read_bytes. destruct (N.leb_spec (off + w) (size bytes)) as [Hle|]; [|nia]. cbn [bind].
  destruct (IH (num - 1) (off + w)) as [xs ->]; [nia|lia|by eexists].
Qed.

Lemma ub_exact_lem u adds k c : adds < 2 ^ 32 -> k < 2 ^ 32 -> byte_string c ->
  let bytes := be 4 adds ++ be 4 k ++ c in size bytes < 2 ^ 31 ->
  (size bytes = 8 + 36 * k -> exists u', ub_Unserialize u bytes = Ok (true, u') /\ ub_Serialize u' = Ok bytes) /\
  (size bytes = (8 + 36 * k) mod 2 ^ 32 -> size bytes <> 8 + 36 * k -> ub_Unserialize u bytes = UB) /\
  (size bytes <> (8 + 36 * k) mod 2 ^ 32 ->
     ub_Unserialize u bytes = Ok (false, UndoBatch adds (m_deleted_positions u) (m_deleted_hashes u))).
Proof.
  intros Ha Hk Hc bytes Hs.
  assert (Hk4 : k < 256 ^ 4) by done. assert (Ha4 : adds < 256 ^ 4) by done.
  assert (H8 : 8 <= size bytes) by (unfold bytes; rewrite !size_app, !size_be; lia).
  assert (Eu : ub_Unserialize u bytes = if negb (size bytes =? (8 + 36 * k) mod 2 ^ 32)
     then Ok (false, UndoBatch adds (m_deleted_positions u) (m_deleted_hashes u)) else
     let fuel := S (length bytes) in
     let* ts := read_many fuel ReadBE32 4 bytes k 8 in
     let* hs := read_many fuel read_hash 32 bytes k (8 + 4 * k) in
     let data_offset := 8 + 4 * k + 32 * k in
     if int_max <? data_offset then UB else
     let* _ := assert_ (data_offset =? size bytes) in
     Ok (true, UndoBatch adds ts hs)).
  { unfold ub_Unserialize. destruct (N.ltb_spec (size bytes) 8); [lia|].
    assert (E1 : ReadBE32 bytes 0 = Ok adds) by (unfold bytes; by rewrite ReadBE32_hd).
    assert (E2 : ReadBE32 bytes 4 = Ok k) by (unfold bytes; by rewrite ReadBE32_hd2).
    rewrite E1. cbn [bind]. rewrite E2. cbn [bind].
    replace (8 + 4 * k + 32 * k) with (8 + 36 * k) by lia. done. }
  split; [|split].
  - intros Esz. change (2 ^ 31) with 2147483648 in Hs.
    destruct (ub_canonical_small u adds k c) as (b & u' & E & Hb & Hser & _); [done| |done|done|].
    { change (2 ^ 26) with 67108864. lia. }
    destruct b; [|by apply Hb in Esz]. exists u'. split; [done|]. by apply Hser.
  - intros E Hne. rewrite Eu. clear Eu. rewrite (proj2 (N.eqb_eq _ _) E). cbn [negb]. cbv zeta.
    assert (Hlt : size bytes < 8 + 36 * k).
    { assert ((8 + 36 * k) mod 2 ^ 32 <= 8 + 36 * k) by (by apply N.mod_le). lia. }
    assert (Hk0 : 0 < k) by (destruct (N.eq_dec k 0) as [->|]; [change ((8 + 36 * 0) mod 2 ^ 32) with 8 in E|]; lia).
    assert (Hfu : forall off, (N.to_nat (size bytes - off) < S (length bytes))%nat) by (intros off; unfold size; lia).
    destruct (N.le_gt_cases (8 + 4 * k) (size bytes)) as [Hle|Hgt].
    + destruct (read_many_long ReadBE32 4 bytes reader32 ltac:(done) (S (length bytes)) k 8 ltac:(lia) ltac:(done)) as [ts ->]. cbn [bind].
      rewrite (read_many_short read_hash 32 bytes reader_hash); [done|done|done|lia|done].
    + rewrite (read_many_short ReadBE32 4 bytes reader32); [done|done|done|lia|done].
  - intros Hne. rewrite Eu. destruct (N.eqb_spec (size bytes) ((8 + 36 * k) mod 2 ^ 32)); [done|]. done.
Qed.

(** ** C15, C16: exactly *)
Lemma Serialize_mod p : bp_Serialize (BatchProofRaw ((λ t, t mod 2 ^ 32) <$> m_targets p) (m_sorted_targets p) (m_proof p)) = bp_Serialize p.
Proof.
  unfold bp_Serialize. cbn [m_targets m_proof]. unfold size. rewrite fmap_length. destruct (_ <? _); [done|]. do 4 f_equal.
  rewrite <- list_fmap_compose. f_equal. apply list_fmap_ext. intros _ t _. unfold compose, WriteBE32. change (2 ^ 32) with two32.
  by rewrite N.mod_mod.
Qed.
Lemma same_encoding_lem p q bytes : fits 32 (m_proof p) -> fits 32 (m_proof q) -> bp_Serialize p = Ok bytes ->
  bp_Serialize q = Ok bytes <-> (λ t, t mod 2 ^ 32) <$> m_targets p = (λ t, t mod 2 ^ 32) <$> m_targets q /\ m_proof p = m_proof q.
Proof.
  intros Hp Hq E. assert (Hfit : forall l : list N, fits 4 ((λ t, t mod 2 ^ 32) <$> l)).
  { intros l. apply Forall_fmap, Forall_true. intros x. unfold compose. change (256 ^ 4) with (2 ^ 32). by apply N.mod_lt. }
  rewrite <- Serialize_mod in E. split.
  - intros E'. rewrite <- Serialize_mod in E'. refine (bp_injective_32 _ _ bytes _ _ _ _ E E'); [exact (Hfit _)|exact (Hfit _)|exact Hp|exact Hq].
  - intros [E1 E2]. rewrite <- Serialize_mod. rewrite <- E1, <- E2. rewrite <- E. unfold bp_Serialize. done.
Qed.

Lemma reused_lem p bytes p' : bp_Unserialize p bytes = Ok (true, p') ->
  m_sorted_targets p' = sortN (m_sorted_targets p ++ m_targets p') /\ (m_sorted_targets p' = sortN (m_targets p') <-> m_sorted_targets p = []).
Proof.
  intros E. assert (Es : m_sorted_targets p' = sortN (m_sorted_targets p ++ m_targets p')).
  { revert E. unfold bp_Unserialize.
    destruct (_ <? 8); [done|]. destruct (ReadBE32 _ 0); try done. cbn [bind].
    destruct (ReadBE32 _ 4); try done. cbn [bind]. destruct (negb _); [done|].
    destruct (read_many _ ReadBE32 _ _ _ _); try done. cbn [bind].
    destruct (read_many _ read_hash _ _ _ _); try done. cbn [bind].
    destruct (_ <? _); [done|]. destruct (assert_ _); try done. cbn [bind]. intros [=<-]. done. }
  split; [done|]. rewrite Es. split; [|by intros ->]. intros Hs. apply (f_equal length) in Hs.
  rewrite !(Permutation_length (sortN_perm _)), app_length in Hs. destruct (m_sorted_targets p); [done|cbn [length] in Hs; lia].
Qed.
