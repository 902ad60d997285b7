(** * ByteFacts: byte order (proofs) *)
From Verif Require Import Base StateModel CodecModel ByteModel PosFacts CodecSpec CodecFacts.
From Coq Require Import ZifyBool ZifyNat ZifyN.
Ltac Zify.zify_post_hook ::= idtac.

(** ** Byte swaps *)
Lemma land_byte x k : N.land x (255 * 2 ^ k) = (x / 2 ^ k mod 256) * 2 ^ k.
Proof.
  change 255 with (N.ones 8). change 256 with (2 ^ 8). rewrite <- !N.shiftl_mul_pow2, <- N.shiftr_div_pow2, <- N.land_ones.
  apply N.bits_inj. intros j. rewrite N.land_spec. destruct (N.lt_ge_cases j k).
  - rewrite !N.shiftl_spec_low by done. by rewrite andb_false_r.
  - rewrite !N.shiftl_spec_high' by done. rewrite N.land_spec, N.shiftr_spec'. f_equal. f_equal. lia.
Qed.
Lemma byte_down x k j : j <= k -> N.shiftr (N.land x (255 * 2 ^ k)) j = (x / 2 ^ k mod 256) * 2 ^ (k - j).
Proof.
  intros Hj. rewrite land_byte, N.shiftr_div_pow2. replace k with ((k - j) + j) at 2 by lia. rewrite N.pow_add_r, N.mul_assoc.
  apply N.div_mul. by apply N.pow_nonzero.
Qed.
Lemma byte_up x k j w : k + j + 8 <= w -> N.shiftl (N.land x (255 * 2 ^ k)) j mod 2 ^ w = (x / 2 ^ k mod 256) * 2 ^ (k + j).
Proof.
  intros Hw. rewrite land_byte, N.shiftl_mul_pow2, <- N.mul_assoc, <- N.pow_add_r. apply N.mod_small.
  assert (Hb : x / 2 ^ k mod 256 < 2 ^ 8) by (by apply N.mod_lt).
  apply N.lt_le_trans with (2 ^ 8 * 2 ^ (k + j)); [apply N.mul_lt_mono_pos_r; [|done]|].
  - assert (2 ^ (k + j) <> 0) by (by apply N.pow_nonzero). lia.
  - rewrite <- N.pow_add_r. apply N.pow_le_mono_r; lia.
Qed.
Definition rb (k : nat) (x : N) : N := be_value (rev (be_bytes k x)).

(** [x] in pieces. *)
Lemma div_div_pow x a b : x / 2 ^ a / 2 ^ b = x / 2 ^ (a + b).
Proof. rewrite N.div_div by (by apply N.pow_nonzero). by rewrite <- N.pow_add_r. Qed.

Lemma bswap_16_ok x : x < 65536 -> bswap_16 x = rb 2 x.
Proof.
  intros Hx. unfold bswap_16, rb. cbn [be_bytes rev app]. unfold be_value. cbn [fold_left].
  rewrite N.shiftl_mul_pow2, N.shiftr_div_pow2. change 256 with (2 ^ 8).
  assert (Hd : x / 2 ^ 8 < 2 ^ 8) by (apply N.div_lt_upper_bound; [done|exact Hx]).
  rewrite lor_disjoint by done. rewrite (N.mod_small (x / 2 ^ 8)) by done.
  change 65536 with (2 ^ 8 * 2 ^ 8). rewrite N.mul_comm with (m := 2 ^ 8) (n := x).
  assert (Hx' : x = 2 ^ 8 * (x / 2 ^ 8) + x mod 2 ^ 8) by (apply N.div_mod; done).
  assert (Hm : x mod 2 ^ 8 < 2 ^ 8) by (by apply N.mod_lt).
  remember (x / 2 ^ 8) as q. remember (x mod 2 ^ 8) as r. clear Heqq Heqr. change (2 ^ 8) with 256 in *. subst x.
  replace (q + 256 * (256 * q + r)) with (q + 256 * r + q * (256 * 256)) by lia. rewrite N.mod_add by done.
  rewrite N.mod_small by lia. lia.
Qed.

Lemma lor_add a b k : a < 2 ^ k -> N.lor a (b * 2 ^ k) = a + b * 2 ^ k.
Proof. apply lor_disjoint. Qed.

Lemma bswap_32_ok x : bswap_32 x = rb 4 x.
Proof.
  unfold bswap_32, rb. change two32 with (2 ^ 32).
  change 0xff000000 with (255 * 2 ^ 24). change 0x00ff0000 with (255 * 2 ^ 16). change 0x0000ff00 with (255 * 2 ^ 8). change 0x000000ff with (255 * 2 ^ 0).
  rewrite !byte_down, !byte_up by lia. cbn [be_bytes rev app]. unfold be_value. cbn [fold_left].
  change (24 - 24) with 0. change (16 - 8) with 8. change (8 + 8) with 16. change (0 + 24) with 24.
  replace (x / 256 / 256 / 256) with (x / 2 ^ 24) by (change 256 with (2 ^ 8); rewrite !div_div_pow; done).
  replace (x / 256 / 256) with (x / 2 ^ 16) by (change 256 with (2 ^ 8); rewrite !div_div_pow; done).
  change (x / 256) with (x / 2 ^ 8). rewrite N.div_1_r.
  assert (Ha : x / 2 ^ 24 mod 256 < 256) by (by apply N.mod_lt). assert (Hb : x / 2 ^ 16 mod 256 < 256) by (by apply N.mod_lt).
  assert (Hc : x / 2 ^ 8 mod 256 < 256) by (by apply N.mod_lt). assert (Hd : x mod 256 < 256) by (by apply N.mod_lt).
  remember (x / 2 ^ 24 mod 256) as a. remember (x / 2 ^ 16 mod 256) as b. remember (x / 2 ^ 8 mod 256) as c. remember (x mod 256) as d.
  clear Heqa Heqb Heqc Heqd. change (2 ^ 0) with 1. rewrite N.mul_1_r.
  assert (E1 : 2 ^ 8 = 256) by done. assert (E2 : 2 ^ 16 = 256 * 256) by done. assert (E3 : 2 ^ 24 = 256 * 256 * 256) by done.
  rewrite (lor_add a b 8), (lor_add _ c 16), (lor_add _ d 24) by lia. lia.
Qed.

Lemma bswap_64_ok x : bswap_64 x = rb 8 x.
Proof.
  unfold bswap_64, rb. change two64 with (2 ^ 64).
  change 0xff00000000000000 with (255 * 2 ^ 56). change 0x00ff000000000000 with (255 * 2 ^ 48). change 0x0000ff0000000000 with (255 * 2 ^ 40). change 0x000000ff00000000 with (255 * 2 ^ 32).
  change 0xff000000 with (255 * 2 ^ 24). change 0x00ff0000 with (255 * 2 ^ 16). change 0x0000ff00 with (255 * 2 ^ 8). change 0x000000ff with (255 * 2 ^ 0).
  rewrite !byte_down, !byte_up by lia. cbn [be_bytes rev app]. unfold be_value. cbn [fold_left].
  change (56 - 56) with 0. change (48 - 40) with 8. change (40 - 24) with 16. change (32 - 8) with 24. change (24 + 8) with 32. change (16 + 24) with 40. change (8 + 40) with 48. change (0 + 56) with 56.
  replace (x / 256 / 256 / 256 / 256 / 256 / 256 / 256) with (x / 2 ^ 56) by (change 256 with (2 ^ 8); rewrite !div_div_pow; done).
  replace (x / 256 / 256 / 256 / 256 / 256 / 256) with (x / 2 ^ 48) by (change 256 with (2 ^ 8); rewrite !div_div_pow; done).
  replace (x / 256 / 256 / 256 / 256 / 256) with (x / 2 ^ 40) by (change 256 with (2 ^ 8); rewrite !div_div_pow; done).
  replace (x / 256 / 256 / 256 / 256) with (x / 2 ^ 32) by (change 256 with (2 ^ 8); rewrite !div_div_pow; done).
  replace (x / 256 / 256 / 256) with (x / 2 ^ 24) by (change 256 with (2 ^ 8); rewrite !div_div_pow; done).
  replace (x / 256 / 256) with (x / 2 ^ 16) by (change 256 with (2 ^ 8); rewrite !div_div_pow; done).
  change (x / 256) with (x / 2 ^ 8). rewrite N.div_1_r.
  assert (Hall : forall y, y mod 256 < 256) by (intros y; by apply N.mod_lt).
  pose proof (Hall (x / 2 ^ 56)) as H0. pose proof (Hall (x / 2 ^ 48)) as H1. pose proof (Hall (x / 2 ^ 40)) as H2. pose proof (Hall (x / 2 ^ 32)) as H3.
  pose proof (Hall (x / 2 ^ 24)) as H4. pose proof (Hall (x / 2 ^ 16)) as H5. pose proof (Hall (x / 2 ^ 8)) as H6. pose proof (Hall x) as H7.
  remember (x / 2 ^ 56 mod 256) as b0. remember (x / 2 ^ 48 mod 256) as b1. remember (x / 2 ^ 40 mod 256) as b2. remember (x / 2 ^ 32 mod 256) as b3.
  remember (x / 2 ^ 24 mod 256) as b4. remember (x / 2 ^ 16 mod 256) as b5. remember (x / 2 ^ 8 mod 256) as b6. remember (x mod 256) as b7.
  clear Heqb0 Heqb1 Heqb2 Heqb3 Heqb4 Heqb5 Heqb6 Heqb7 Hall. change (2 ^ 0) with 1. rewrite N.mul_1_r.
  assert (E1 : 2 ^ 8 = 256) by done. assert (E2 : 2 ^ 16 = 256 * 256) by done. assert (E3 : 2 ^ 24 = 256 * 256 * 256) by done.
  assert (E4 : 2 ^ 32 = 256 * 256 * 256 * 256) by done. assert (E5 : 2 ^ 40 = 256 * 256 * 256 * 256 * 256) by done.
  assert (E6 : 2 ^ 48 = 256 * 256 * 256 * 256 * 256 * 256) by done. assert (E7 : 2 ^ 56 = 256 * 256 * 256 * 256 * 256 * 256 * 256) by done.
  rewrite (lor_add b0 b1 8), (lor_add _ b2 16), (lor_add _ b3 24), (lor_add _ b4 32), (lor_add _ b5 40), (lor_add _ b6 48), (lor_add _ b7 56) by lia.
  lia.
Qed.

(** ** Conversions *)
Definition right_host (h : host) : Prop := h_decl h = true \/ h_words_big h = h_big h.

Lemma rev_bytes_byte k x : byte_string (rev (be_bytes k x)).
Proof. apply Forall_rev, be_bytes_byte. Qed.
Lemma rb_bytes k x : be_bytes k (rb k x) = rev (be_bytes k x).
Proof.
  unfold rb. rewrite <- (be_bytes_value (rev (be_bytes k x)) (rev_bytes_byte k x)) at 2. by rewrite rev_length, be_bytes_length.
Qed.
Lemma to_be h k x y : right_host h -> x < 256 ^ N.of_nat k -> y = rb k x -> (if h_decl h then sys_be h k x else if h_words_big h then x else y) = if h_big h then x else rb k x.
Proof.
  intros Hr Hx ->. unfold sys_be, mem_bytes. destruct h as [big words decl]; cbn in *. destruct decl.
  - destruct big; [|done]. by apply be_value_small.
  - destruct Hr as [?|Hw]; [done|]. cbn in Hw. by rewrite Hw.
Qed.
Lemma to_le h k x y : right_host h -> x < 256 ^ N.of_nat k -> y = rb k x -> (if h_decl h then sys_le h k x else if h_words_big h then y else x) = if h_big h then rb k x else x.
Proof.
  intros Hr Hx ->. unfold sys_le, mem_bytes. destruct h as [big words decl]; cbn in *. destruct decl.
  - destruct big; [done|]. rewrite rev_involutive. by apply be_value_small.
  - destruct Hr as [?|Hw]; [done|]. cbn in Hw. by rewrite Hw.
Qed.
Lemma write_be h k x : mem_bytes h k (if h_big h then x else rb k x) = be_bytes k x.
Proof. unfold mem_bytes. destruct (h_big h); [done|]. by rewrite rb_bytes, rev_involutive. Qed.
Lemma write_le h k x : mem_bytes h k (if h_big h then rb k x else x) = rev (be_bytes k x).
Proof. unfold mem_bytes. destruct (h_big h); [|done]. by rewrite rb_bytes. Qed.
Lemma read_be h b : byte_string b -> (if h_big h then mem_value h b else rb (length b) (mem_value h b)) = be_value b.
Proof.
  intros Hb. unfold mem_value. destruct (h_big h); [done|]. unfold rb. rewrite <- (rev_length b).
  rewrite be_bytes_value by (by apply Forall_rev). by rewrite rev_involutive.
Qed.
Lemma read_le h b : byte_string b -> (if h_big h then rb (length b) (mem_value h b) else mem_value h b) = be_value (rev b).
Proof.
  intros Hb. unfold mem_value. destruct (h_big h); [|done]. unfold rb. by rewrite be_bytes_value.
Qed.
Lemma mem_value_lt h b : byte_string b -> mem_value h b < 256 ^ N.of_nat (length b).
Proof.
  intros Hb. unfold mem_value. destruct (h_big h); [by apply be_value_bound|]. rewrite <- (rev_length b). apply be_value_bound. by apply Forall_rev.
Qed.

(** ** The helpers *)
Lemma le_bytes k : forall x, rev (be_bytes k x) = le k x.
Proof.
  induction k as [|k IH]; intros x; [done|]. cbn [be_bytes]. rewrite rev_app_distr. cbn [rev app]. rewrite IH. unfold le.
  change (seq 0 (S k)) with (0%nat :: seq 1 k). cbn [fmap list_fmap]. change (256 ^ N.of_nat 0) with 1. rewrite N.div_1_r. f_equal.
  rewrite <- fmap_S_seq, <- list_fmap_compose. apply list_fmap_ext. intros _ j _. cbn.
  rewrite N.div_div by (try apply N.pow_nonzero; done). f_equal. f_equal. rewrite <- N.pow_succ_r'. f_equal. lia.
Qed.
Lemma be_mod k x m : m = 256 ^ N.of_nat k -> be_bytes k (x mod m) = be k x.
Proof.
  intros ->. rewrite be_bytes_be. unfold be. apply list_fmap_ext. intros i j Hj%elem_of_list_lookup_2%elem_of_seq. cbn.
  remember (N.of_nat (k - 1 - j)) as a eqn:Ea. assert (Hk : N.of_nat k = a + (1 + (N.of_nat k - 1 - a))) by lia. rewrite Hk.
  remember (N.of_nat k - 1 - a) as c eqn:Ec. rewrite N.pow_add_r, N.mod_mul_r by (by apply N.pow_nonzero).
  rewrite N.mul_comm, N.div_add by (by apply N.pow_nonzero). rewrite (N.div_small (x mod _)) by (apply N.mod_lt; by apply N.pow_nonzero).
  rewrite N.add_0_l, N.pow_add_r, N.pow_1_r, N.mod_mul_r by (try apply N.pow_nonzero; done).
  rewrite N.mul_comm, N.mod_add by done. by apply N.mod_mod.
Qed.
Lemma le_mod k x m : m = 256 ^ N.of_nat k -> rev (be_bytes k (x mod m)) = le k x.
Proof. intros Hm. rewrite (be_mod k x m Hm), <- be_bytes_be. apply le_bytes. Qed.

Section Host.
Context (h : host) (Hh : right_host h).

Lemma two32_256 : two32 = 256 ^ N.of_nat 4. Proof. done. Qed.
Lemma two64_256 : two64 = 256 ^ N.of_nat 8. Proof. done. Qed.
Lemma mod32 x : x mod two32 < 256 ^ N.of_nat 4. Proof. by apply N.mod_lt. Qed.
Lemma mod64 x : x mod two64 < 256 ^ N.of_nat 8. Proof. by apply N.mod_lt. Qed.
Lemma mod16 x : x mod 65536 < 256 ^ N.of_nat 2. Proof. by apply N.mod_lt. Qed.

Lemma mWriteBE32_ok x : mWriteBE32 h x = be 4 x.
Proof. unfold mWriteBE32, htobe32. rewrite (to_be h 4), write_be; [by apply be_mod|done|apply mod32|apply bswap_32_ok]. Qed.
Lemma mWriteBE64_ok x : mWriteBE64 h x = be 8 x.
Proof. unfold mWriteBE64, htobe64. rewrite (to_be h 8), write_be; [by apply be_mod|done|apply mod64|apply bswap_64_ok]. Qed.
Lemma mWriteLE16_ok x : mWriteLE16 h x = le 2 x.
Proof. unfold mWriteLE16, htole16. rewrite (to_le h 2), write_le; [by apply le_mod|done|apply mod16|apply bswap_16_ok, mod16]. Qed.
Lemma mWriteLE32_ok x : mWriteLE32 h x = le 4 x.
Proof. unfold mWriteLE32, htole32. rewrite (to_le h 4), write_le; [by apply le_mod|done|apply mod32|apply bswap_32_ok]. Qed.
Lemma mWriteLE64_ok x : mWriteLE64 h x = le 8 x.
Proof. unfold mWriteLE64, htole64. rewrite (to_le h 8), write_le; [by apply le_mod|done|apply mod64|apply bswap_64_ok]. Qed.

Lemma read_bytes_inv bytes off k : byte_string bytes ->
  read_bytes bytes off (N.of_nat k) = UB \/ exists b, read_bytes bytes off (N.of_nat k) = Ok b /\ byte_string b /\ length b = k.
Proof.
  intros Hb. unfold read_bytes. destruct (N.leb_spec (off + N.of_nat k) (size bytes)) as [Hl|Hl]; [right|by left]. eexists. split; [done|]. split.
  - by apply Forall_take, Forall_drop.
  - rewrite take_length, drop_length. unfold size in Hl. lia.
Qed.
Lemma mReadBE32_ok bytes off : byte_string bytes -> mReadBE32 h bytes off = ReadBE32 bytes off.
Proof.
  intros Hb. unfold mReadBE32, ReadBE32, be32toh, htobe32. change 4 with (N.of_nat 4). destruct (read_bytes_inv bytes off 4 Hb) as [->|(b & -> & Hbb & Hl)]; [done|]. cbn [bind].
  pose proof (mem_value_lt h b Hbb) as Hlt. pose proof (read_be h b Hbb) as E. rewrite Hl in *. rewrite (to_be h 4), E; [done..|apply bswap_32_ok].
Qed.
Lemma mReadBE64_ok bytes off : byte_string bytes -> mReadBE64 h bytes off = ReadBE64 bytes off.
Proof.
  intros Hb. unfold mReadBE64, ReadBE64, be64toh, htobe64. change 8 with (N.of_nat 8). destruct (read_bytes_inv bytes off 8 Hb) as [->|(b & -> & Hbb & Hl)]; [done|]. cbn [bind].
  pose proof (mem_value_lt h b Hbb) as Hlt. pose proof (read_be h b Hbb) as E. rewrite Hl in *. rewrite (to_be h 8), E; [done..|apply bswap_64_ok].
Qed.
Lemma le_read k bytes off conv : byte_string bytes -> (forall x, x < 256 ^ N.of_nat k -> conv x = if h_big h then rb k x else x) ->
  (let* b := read_bytes bytes off (N.of_nat k) in Ok (conv (mem_value h b))) = let* b := read_bytes bytes off (N.of_nat k) in Ok (be_value (rev b)).
Proof.
  intros Hb Hc. destruct (read_bytes_inv bytes off k Hb) as [->|(b & -> & Hbb & Hl)]; [done|]. cbn [bind].
  pose proof (mem_value_lt h b Hbb) as Hlt. pose proof (read_le h b Hbb) as E. rewrite Hl in *. by rewrite Hc, E.
Qed.
Lemma mReadLE16_ok bytes off : byte_string bytes -> mReadLE16 h bytes off = let* b := read_bytes bytes off 2 in Ok (be_value (rev b)).
Proof. intros Hb. apply (le_read 2); [done|]. intros x Hx. apply to_le; [done..|by apply bswap_16_ok]. Qed.
Lemma mReadLE32_ok bytes off : byte_string bytes -> mReadLE32 h bytes off = let* b := read_bytes bytes off 4 in Ok (be_value (rev b)).
Proof. intros Hb. apply (le_read 4); [done|]. intros x Hx. apply to_le; [done..|apply bswap_32_ok]. Qed.
Lemma mReadLE64_ok bytes off : byte_string bytes -> mReadLE64 h bytes off = let* b := read_bytes bytes off 8 in Ok (be_value (rev b)).
Proof. intros Hb. apply (le_read 8); [done|]. intros x Hx. apply to_le; [done..|apply bswap_64_ok]. Qed.

Lemma read_at a b c : byte_string b -> read_bytes (a ++ b ++ c) (size a) (size b) = Ok b.
Proof.
  intros Hb. unfold read_bytes, size. rewrite !app_length. destruct (N.leb_spec (N.of_nat (length a) + N.of_nat (length b)) (N.of_nat (length a + (length b + length c)))); [|lia].
  rewrite !Nat2N.id. by rewrite drop_app, take_app.
Qed.
End Host.

(** Written and read back, on any two machines. *)
Lemma byte_order_lem h h' x a c : right_host h -> right_host h' -> byte_string a -> byte_string c ->
  mWriteBE32 h x = be 4 x /\ mWriteBE64 h x = be 8 x /\ mWriteLE16 h x = le 2 x /\ mWriteLE32 h x = le 4 x /\ mWriteLE64 h x = le 8 x /\
  mReadBE32 h' (a ++ mWriteBE32 h x ++ c) (size a) = Ok (x mod 2 ^ 32) /\ mReadBE64 h' (a ++ mWriteBE64 h x ++ c) (size a) = Ok (x mod 2 ^ 64) /\
  mReadLE16 h' (a ++ mWriteLE16 h x ++ c) (size a) = Ok (x mod 2 ^ 16) /\ mReadLE32 h' (a ++ mWriteLE32 h x ++ c) (size a) = Ok (x mod 2 ^ 32) /\ mReadLE64 h' (a ++ mWriteLE64 h x ++ c) (size a) = Ok (x mod 2 ^ 64).
Proof.
  intros Hh Hh' Ha Hc. rewrite mWriteBE32_ok, mWriteBE64_ok, mWriteLE16_ok, mWriteLE32_ok, mWriteLE64_ok by done. do 5 (split; [done|]).
  assert (Hbe : forall k, byte_string (a ++ be k x ++ c)) by (intros k; rewrite <- be_bytes_be; apply Forall_app; split; [done|]; apply Forall_app; split; [apply be_bytes_byte|done]).
  assert (Hle : forall k, byte_string (a ++ le k x ++ c)) by (intros k; rewrite <- le_bytes; apply Forall_app; split; [done|]; apply Forall_app; split; [apply rev_bytes_byte|done]).
  assert (Rbe : forall k m, m = N.of_nat k -> read_bytes (a ++ be k x ++ c) (size a) m = Ok (be k x)).
  { intros k m ->. rewrite <- be_bytes_be. pose proof (read_at a (be_bytes k x) c (be_bytes_byte k x)) as E. unfold size in E at 2. by rewrite be_bytes_length in E. }
  assert (Rle : forall k m, m = N.of_nat k -> read_bytes (a ++ le k x ++ c) (size a) m = Ok (le k x)).
  { intros k m ->. rewrite <- le_bytes. pose proof (read_at a (rev (be_bytes k x)) c (rev_bytes_byte k x)) as E. unfold size in E at 2. by rewrite rev_length, be_bytes_length in E. }
  rewrite mReadBE32_ok, mReadBE64_ok, mReadLE16_ok, mReadLE32_ok, mReadLE64_ok by done. unfold ReadBE32, ReadBE64.
  rewrite (Rbe 4%nat), (Rbe 8%nat), (Rle 2%nat), (Rle 4%nat), (Rle 8%nat) by done. cbn [bind]. rewrite <- !be_bytes_be, <- !le_bytes, !rev_involutive, !be_value_bytes. done.
Qed.
Lemma helpers_lem h : right_host h -> (forall x, mWriteBE32 h x = WriteBE32 x /\ mWriteBE64 h x = WriteBE64 x) /\
  forall bytes off, byte_string bytes -> mReadBE32 h bytes off = ReadBE32 bytes off /\ mReadBE64 h bytes off = ReadBE64 bytes off.
Proof.
  intros Hh. split.
  - intros x. rewrite mWriteBE32_ok, mWriteBE64_ok by done. unfold WriteBE32, WriteBE64. by rewrite !be_mod.
  - intros bytes off Hb. by rewrite mReadBE32_ok, mReadBE64_ok.
Qed.
Lemma LeafHasher_lem h x : right_host h -> LeafHasher h x = Ok (be_value (rev (take 8 (be 32 x)))).
Proof.
  intros Hh. unfold LeafHasher, hash_bytes. rewrite mReadLE64_ok; [|done|apply be_bytes_byte]. unfold read_bytes, size. rewrite be_bytes_length, be_bytes_be. done.
Qed.
Lemma byte_order_refuted_lem : exists h x, h_words_big h = false /\ mWriteBE32 h x <> be 4 x /\ mWriteBE64 h x <> be 8 x.
Proof. exists (Host true false false), 1. split; [done|]. split; vm_compute; discriminate. Qed.

(** ** CountBits *)
Lemma count_bits_ok : forall fuel x ret, x < 2 ^ N.of_nat fuel -> count_bits_loop fuel x ret = Ok (ret + N.size x).
Proof.
  induction fuel as [|fuel IH]; intros x ret Hx; cbn [count_bits_loop].
  - change (2 ^ N.of_nat 0) with 1 in Hx. assert (x = 0) as -> by lia. by rewrite N.add_0_r.
  - destruct (N.eqb_spec x 0) as [->|Hz]; [by rewrite N.add_0_r|]. rewrite IH.
    + f_equal. destruct x as [|[q|q|]]; cbn [N.shiftr Pos.iter Pos.shiftr N.div2 Pos.div2 N.size Pos.size]; [done|lia|lia|lia].
    + rewrite N.shiftr_div_pow2. change (2 ^ 1) with 2. apply N.div_lt_upper_bound; [done|]. by rewrite Nat2N.inj_succ, N.pow_succ_r' in Hx.
Qed.
Lemma CountBits_lem x : x < 2 ^ 64 -> exists k, CountBitsLoop x = Ok k /\ k = CountBits x /\ x / 2 ^ k = 0 /\ (forall j, j < k -> x / 2 ^ j <> 0) /\ k <= 64.
Proof.
  intros Hx. exists (N.size x). unfold CountBitsLoop. rewrite count_bits_ok by done. rewrite N.add_0_l. split; [done|]. split; [done|].
  pose proof (N.size_gt x) as Hg. split; [by apply N.div_small|]. assert (Hle : forall j, j < N.size x -> 2 ^ j <= x).
  { intros j Hj. destruct (N.eq_dec x 0) as [->|Hz]; [by destruct j|]. pose proof (N.size_log2 x Hz) as Hs. rewrite Hs in Hj.
    apply N.le_trans with (2 ^ N.log2 x); [apply N.pow_le_mono_r; lia|]. apply N.log2_spec. lia. }
  split.
  - intros j Hj E. specialize (Hle j Hj). apply N.div_small_iff in E; [lia|by apply N.pow_nonzero].
  - destruct (N.le_gt_cases (N.size x) 64) as [?|Hc]; [done|]. specialize (Hle 64 Hc). lia.
Qed.

(** The condition is exact. *)
Lemma byte_order_exact_lem h : (forall x, mWriteBE32 h x = be 4 x) <-> h_decl h = true \/ h_words_big h = h_big h.
Proof.
  split.
  - intros Hx. specialize (Hx 1). destruct h as [[] [] []]; cbn [h_decl h_words_big h_big]; auto; vm_compute in Hx; done.
  - intros Hh x. by destruct (byte_order_lem h h x [] [] Hh Hh ltac:(constructor) ltac:(constructor)).
Qed.
