(** * PosFacts: the position functions of StateModel in coordinates (proofs) *)
From Verif Require Import Base StateModel PosSpec.
From Coq Require Import ZifyBool ZifyNat ZifyN.
Ltac Zify.zify_post_hook ::= Z.div_mod_to_equations.

Lemma bind_ok {A B} (m : res A) (f : A -> res B) b :
  bind m f = Ok b -> exists a, m = Ok a /\ f a = Ok b.
Proof. destruct m; simpl; try discriminate. eauto. Qed.

(** ** Powers of two *)
Lemma pow_pos k : 0 < 2 ^ k.
Proof. pose proof (N.pow_nonzero 2 k). lia. Qed.
Lemma pow_S k : 2 ^ (k + 1) = 2 * 2 ^ k.
Proof. rewrite N.add_1_r, N.pow_succ_r'. lia. Qed.
Lemma pow_split a b : b <= a -> 2 ^ a = 2 ^ (a - b) * 2 ^ b.
Proof. intros. rewrite <- N.pow_add_r. f_equal. lia. Qed.
Lemma pow_mono a b : a <= b -> 2 ^ a <= 2 ^ b.
Proof. intros. apply N.pow_le_mono_r; lia. Qed.
Lemma pow_lt a b : a < b -> 2 ^ a < 2 ^ b.
Proof. intros. apply N.pow_lt_mono_r; lia. Qed.
Lemma pow_inj_le a b : 2 ^ a <= 2 ^ b -> a <= b.
Proof. intros. apply N.le_ngt. intros Hc. pose proof (pow_lt _ _ Hc). lia. Qed.
Lemma pow_inj_lt a b : 2 ^ a < 2 ^ b -> a < b.
Proof. intros. apply N.lt_nge. intros Hc. pose proof (pow_mono _ _ Hc). lia. Qed.

Lemma two64_pow : two64 = 2 ^ 64.
Proof. reflexivity. Qed.

Lemma w64_small x : x < two64 -> w64 x = x.
Proof. intros. apply N.mod_small. done. Qed.

Lemma add64_small a b : a + b < two64 -> add64 a b = a + b.
Proof. apply w64_small. Qed.
Lemma sub64_small a b : b <= a -> a < two64 -> sub64 a b = a - b.
Proof. intros. unfold sub64. rewrite (w64_small b) by lia. unfold w64, two64 in *. lia. Qed.

Lemma shl64_ok x k : k < 64 -> shl64 x k = Ok (w64 (x * 2 ^ k)).
Proof. intros. unfold shl64. rewrite N.shiftl_mul_pow2. case_decide || destruct (N.ltb_spec k 64); [done|lia]. Qed.
Lemma shr64_ok x k : k < 64 -> shr64 x k = Ok (x / 2 ^ k).
Proof. intros. unfold shr64. rewrite N.shiftr_div_pow2. destruct (N.ltb_spec k 64); [done|lia]. Qed.
Lemma int_sub_ok a b : b <= a -> int_sub a b = Ok (a - b).
Proof. intros. unfold int_sub. destruct (N.leb_spec b a); [done|lia]. Qed.

Lemma land_mask x k : N.land x (2 ^ k - 1) = x mod 2 ^ k.
Proof. replace (2 ^ k - 1) with (N.ones k) by (rewrite N.ones_equiv; lia). apply N.land_ones. Qed.

Lemma lor_disjoint a b k : a < 2 ^ k -> N.lor a (b * 2 ^ k) = a + b * 2 ^ k.
Proof.
  intros. assert (Hz : N.land a (b * 2 ^ k) = 0).
  { apply N.bits_inj. intros j. rewrite N.land_spec, N.bits_0.
    destruct (N.lt_ge_cases j k) as [?|?].
    - rewrite N.mul_pow2_bits_low by done. apply andb_false_r.
    - destruct (decide (a = 0)) as [->|]; [by rewrite N.bits_0|].
      rewrite (N.bits_above_log2 a); [done|].
      apply N.log2_lt_pow2 in H; lia. }
  rewrite <- N.lxor_lor by done. symmetry. apply N.add_nocarry_lxor. done.
Qed.

(** ** NumRows *)
Lemma size_spec x k : N.size x <= k <-> x < 2 ^ k.
Proof.
  destruct (decide (x = 0)) as [->|]; [simpl; pose proof (pow_pos k); lia|].
  rewrite N.size_log2 by done. pose proof (N.log2_lt_pow2 x k). lia.
Qed.

Lemma NumRows_le n k : NumRows n <= k <-> n <= 2 ^ k.
Proof.
  unfold NumRows, CountBits. pose proof (pow_pos k). destruct (N.eqb_spec n 0); [lia|].
  rewrite size_spec. lia.
Qed.
Lemma NumRows_bound n : n <= 2 ^ NumRows n.
Proof. by apply NumRows_le. Qed.
Lemma NumRows_height n R : is_height n R <-> NumRows n = R.
Proof.
  split.
  - intros [H1 H2]. apply NumRows_le in H1. specialize (H2 _ (NumRows_bound n)). lia.
  - intros <-. split; [apply NumRows_bound|]. intros. by apply NumRows_le.
Qed.
Lemma NumRows_gt n k : k < NumRows n <-> 2 ^ k < n.
Proof. pose proof (NumRows_le n k). lia. Qed.
Lemma NumRows_mono a b : a <= b -> NumRows a <= NumRows b.
Proof. intros. apply NumRows_le. pose proof (NumRows_bound b). lia. Qed.

(** ** Coordinates *)
Lemma slots_below_closed R r : N.of_nat r <= R + 1 ->
  slots_below R r + 2 ^ (R + 1 - N.of_nat r) = 2 ^ (R + 1).
Proof.
  induction r as [|r IH]; intros; cbn [slots_below].
  - rewrite N.add_0_l, N.sub_0_r. done.
  - rewrite Nat2N.inj_succ in *. rewrite <- IH by lia.
    replace (R + 1 - N.of_nat r) with (R - N.of_nat r + 1) by lia. rewrite pow_S.
    replace (R + 1 - N.succ (N.of_nat r)) with (R - N.of_nat r) by lia. lia.
Qed.

(** Work with [enc] through this equation. *)
Lemma enc_eq R r i : r <= R + 1 -> enc R r i + 2 ^ (R + 1 - r) = 2 ^ (R + 1) + i.
Proof.
  intros. unfold enc. pose proof (slots_below_closed R (N.to_nat r)).
  rewrite N2Nat.id in *. lia.
Qed.

Lemma enc_0 R i : enc R 0 i = i.
Proof. unfold enc. simpl. lia. Qed.

Lemma enc_S R r i : r <= R -> enc R (r + 1) i = enc R r 0 + 2 ^ (R - r) + i.
Proof.
  intros. pose proof (enc_eq R r 0). pose proof (enc_eq R (r+1) i).
  replace (R + 1 - (r + 1)) with (R - r) in * by lia.
  replace (R + 1 - r) with (R - r + 1) in * by lia. rewrite ?pow_S in *. lia.
Qed.
Lemma enc_shift R r i : enc R r i = enc R r 0 + i.
Proof. unfold enc. lia. Qed.

Lemma enc_lt R r i : slot R r i -> enc R r i < 2 ^ (R + 1).
Proof.
  intros [? ?]. pose proof (enc_eq R r i).
  replace (R + 1 - r) with (R - r + 1) in * by lia. rewrite ?pow_S in *. lia.
Qed.

Lemma slot_pow R r : r <= R -> 2 ^ (R + 1 - r) = 2 * 2 ^ (R - r).
Proof. intros. rewrite <- pow_S. f_equal. lia. Qed.

Lemma enc_inj R r i r' i' : slot R r i -> slot R r' i' -> enc R r i = enc R r' i' -> r = r' /\ i = i'.
Proof.
  assert (Hlt : forall r i r' i', slot R r i -> slot R r' i' -> r < r' -> enc R r i < enc R r' i').
  { clear. intros r i r' i' [? ?] [? ?] Hlt.
    pose proof (enc_eq R r i). pose proof (enc_eq R r' i').
    rewrite !slot_pow in * by lia.
    assert (2 ^ (R - r' + 1) <= 2 ^ (R - r)) by (apply pow_mono; lia). rewrite ?pow_S in *. lia. }
  intros Hs Hs' He. destruct (N.lt_trichotomy r r') as [?|[->|?]].
  - specialize (Hlt _ _ _ _ Hs Hs'). lia.
  - split; [done|]. unfold enc in He. lia.
  - specialize (Hlt _ _ _ _ Hs' Hs). lia.
Qed.

(** Existing nodes are slots. *)
Lemma node_slot n r i : node n r i -> slot (NumRows n) r i.
Proof.
  unfold node. intros Hn. pose proof (NumRows_bound n) as Hb.
  assert (r <= NumRows n).
  { apply pow_inj_le. pose proof (pow_pos r). nia. }
  split; [done|].
  rewrite (pow_split (NumRows n) r) in Hb by done. pose proof (pow_pos r). nia.
Qed.

Lemma pow_R_64 k : k <= 63 -> 2 ^ k < two64.
Proof. intros. rewrite two64_pow. apply pow_lt. lia. Qed.

Lemma lor_even x : x mod 2 = 0 -> N.lor x 1 = x + 1.
Proof.
  intros. replace x with (x / 2 * 2) at 1 by lia. rewrite N.lor_comm.
  pose proof (lor_disjoint 1 (x/2) 1). change (2^1) with 2 in *. lia.
Qed.

Lemma enc_even R r i : r <= R -> enc R r i mod 2 = i mod 2.
Proof.
  intros. pose proof (enc_eq R r i). rewrite ?slot_pow, ?pow_S in * by lia. lia.
Qed.

Lemma w64_mod x k : k <= 64 -> w64 x mod 2 ^ k = x mod 2 ^ k.
Proof.
  intros. unfold w64. rewrite two64_pow. apply N.bits_inj. intros j.
  destruct (N.lt_ge_cases j k).
  - rewrite !N.mod_pow2_bits_low by lia. done.
  - rewrite !N.mod_pow2_bits_high by lia. done.
Qed.

Lemma lor_mod a b k : N.lor a b mod 2 ^ k = N.lor (a mod 2 ^ k) (b mod 2 ^ k).
Proof. rewrite <- !N.land_ones. apply N.bits_inj. intros j.
  rewrite !N.lor_spec, !N.land_spec, !N.lor_spec. by rewrite andb_orb_distrib_l.
Qed.

Lemma ones_shift_mod j k : k <= j -> ((2 ^ j - 1) * 2 ^ k) mod 2 ^ j = 2 ^ j - 2 ^ k.
Proof.
  intros. pose proof (pow_mono _ _ H). pose proof (pow_pos k). pose proof (pow_pos j).
  symmetry. apply N.mod_unique with (2 ^ k - 1); [lia|]. nia.
Qed.

Lemma lxor_1 x : N.lxor x 1 = sib x.
Proof.
  unfold sib. destruct x as [|[p|p|]]; simpl; try done; lia.
Qed.

Lemma even_mod x : N.even x = (x mod 2 =? 0).
Proof.
  destruct (N.even x) eqn:E.
  - apply N.even_spec in E. destruct E. lia.
  - rewrite <- N.negb_odd in E. apply negb_false_iff, N.odd_spec in E. destruct E. lia.
Qed.

Lemma enc_parity R r i : r <= R -> N.even (enc R r i) = N.even i.
Proof.
  intros. pose proof (enc_even R r i H).
  destruct (N.even (enc R r i)) eqn:E1, (N.even i) eqn:E2; try done.
  - apply N.even_spec in E1. rewrite <- N.negb_odd in E2. apply negb_false_iff, N.odd_spec in E2.
    destruct E1, E2. lia.
  - apply N.even_spec in E2. rewrite <- N.negb_odd in E1. apply negb_false_iff, N.odd_spec in E1.
    destruct E1, E2. lia.
Qed.

Lemma Sibling_ok R r i : r <= R -> Sibling (enc R r i) = enc R r (sib i).
Proof.
  intros. unfold Sibling. rewrite lxor_1. unfold sib. rewrite enc_parity by done.
  destruct (N.even i) eqn:E; [unfold enc; lia|].
  rewrite even_mod in E. unfold enc. lia.
Qed.

Lemma RightSibling_ok R r i : r <= R -> RightSibling (enc R r i) = enc R r (i / 2 * 2 + 1).
Proof.
  intros. unfold RightSibling. pose proof (enc_even R r i H).
  replace (enc R r i) with (enc R r (i / 2 * 2) + i mod 2) by (unfold enc; lia).
  pose proof (enc_even R r (i / 2 * 2) H).
  destruct (decide (i mod 2 = 0)) as [->|].
  - rewrite N.add_0_r, lor_even by lia. unfold enc; lia.
  - replace (i mod 2) with 1 by lia. rewrite <- lor_even by lia.
    rewrite <- N.lor_assoc. change (N.lor 1 1) with 1. rewrite lor_even by lia. unfold enc; lia.
Qed.

Lemma HasRoot_ok m r : r < 64 -> HasRoot m r = Ok (N.testbit m r).
Proof.
  intros. unfold HasRoot. rewrite shr64_ok by done. simpl. f_equal.
  rewrite <- N.shiftr_div_pow2. change 1 with (N.ones 1). rewrite N.land_ones.
  change (N.ones 1) with 1. change (2 ^ 1) with 2.
  rewrite N.testbit_odd, <- N.bit0_odd, <- N.bit0_mod.
  destruct (N.testbit _ 0); done.
Qed.

Lemma detect_loop_ok R : forall k fuel r i, slot R (N.of_nat k + r) i -> (k <= fuel)%nat ->
  detect_loop fuel (enc R (N.of_nat k + r) i) (2 ^ (R - r)) r = Ok (N.of_nat k + r).
Proof.
  induction k as [|k IH]; intros fuel r i Hs Hf; pose proof Hs as [Hr Hi].
  - replace (N.of_nat 0 + r) with r in * by lia.
    assert (N.land (enc R r i) (2 ^ (R - r)) = 0) as Hz.
    { apply N.bits_inj. intros j. rewrite N.land_spec, N.bits_0, N.pow2_bits_eqb.
      destruct (N.eqb_spec (R - r) j) as [<-|]; [|by rewrite andb_false_r].
      rewrite andb_true_r. rewrite N.testbit_odd, N.shiftr_div_pow2.
      pose proof (enc_eq R r i). rewrite slot_pow in * by lia.
      pose proof (pow_split (R + 1) (R - r + 1) ltac:(lia)) as HR. rewrite !pow_S in *.
      assert (enc R r i / 2 ^ (R - r) = 2 * (2 ^ (R + 1 - (R - r + 1)) - 1)) as ->.
      { symmetry. apply N.div_unique with i; [done|].
        pose proof (pow_pos (R + 1 - (R - r + 1))). nia. }
      apply N.odd_mul. }
    destruct fuel; cbn [detect_loop]; rewrite Hz; done.
  - destruct fuel as [|fuel]; [lia|]. cbn [detect_loop].
    rewrite Nat2N.inj_succ in *. 
    replace (N.succ (N.of_nat k) + r) with (N.of_nat k + (r + 1)) in * by lia.
    destruct (N.eqb_spec (N.land (enc R (N.of_nat k + (r + 1)) i) (2 ^ (R - r))) 0) as [Hz|_].
    + exfalso. assert (N.testbit (N.land (enc R (N.of_nat k + (r + 1)) i) (2 ^ (R - r))) (R - r) = false)
        as Hb by (rewrite Hz; apply N.bits_0).
      rewrite N.land_spec, N.pow2_bits_true, andb_true_r, N.testbit_odd, N.shiftr_div_pow2 in Hb.
      set (q := N.of_nat k + (r + 1)) in *.
      pose proof (enc_eq R q i). rewrite slot_pow in * by lia.
      pose proof (pow_split (R + 1) (R - r) ltac:(lia)) as HR.
      assert (2 ^ (R - q + 1) <= 2 ^ (R - r)) by (apply pow_mono; lia). rewrite ?pow_S in *.
      pose proof (pow_pos (R - q)).
      assert (enc R q i / 2 ^ (R - r) = 2 ^ (R + 1 - (R - r)) - 1) as Hd.
      { symmetry. pose proof (pow_pos (R + 1 - (R - r))).
        apply N.div_unique with (2 ^ (R - r) - 2 * 2 ^ (R - q) + i); [lia|].
        assert (2 * 2 ^ (R - q) <= 2 ^ (R - r)) by lia. nia. }
      rewrite Hd in Hb. assert (Hc : R + 1 - (R - r) = r + 1) by (clear - Hr; lia). rewrite Hc in Hb.
      rewrite pow_S in Hb. pose proof (pow_pos r) as Hp.
      assert (Hc2 : 2 * 2 ^ r - 1 = 1 + 2 * (2 ^ r - 1)) by (clear - Hp; lia). rewrite Hc2 in Hb.
      rewrite N.odd_add_mul_2 in Hb. done.
    + rewrite N.shiftr_div_pow2. change (2 ^ 1) with 2.
      replace (2 ^ (R - r) / 2) with (2 ^ (R - (r + 1))).
      2: { replace (R - r) with (R - (r + 1) + 1) by lia. rewrite pow_S. lia. }
      apply IH; [done|lia].
Qed.

Section Rows.
Context (n : N).
Notation R := (NumRows n).
Context (Hn : n <= 2 ^ 62).

Lemma R62 : R <= 62.
Proof. by apply NumRows_le. Qed.

Lemma MaxNodes_ok : MaxNodes n = Ok (2 ^ (R + 1) - 1).
Proof.
  unfold MaxNodes. pose proof R62. rewrite shl64_ok by lia. cbn [bind]. f_equal.
  rewrite <- pow_S. pose proof (pow_R_64 (R+1)). rewrite w64_small by (apply pow_R_64; lia).
  pose proof (pow_pos (R+1)). apply sub64_small; [lia|]. apply pow_R_64; lia.
Qed.

Lemma enc_lt64 r i : slot R r i -> enc R r i < two64.
Proof. intros ?%enc_lt. pose proof R62. pose proof (pow_R_64 (R + 1)). lia. Qed.

Lemma Parent_ok r i : slot R r i -> Parent n (enc R r i) = Ok (enc R (r + 1) (i / 2)).
Proof.
  intros [? ?]. pose proof R62. unfold Parent. rewrite shl64_ok by lia.
  rewrite (N.mul_1_l (2 ^ R)).
  rewrite w64_small by (apply pow_R_64; lia). cbn [bind]. f_equal.
  rewrite N.shiftr_div_pow2. change (2 ^ 1) with 2.
  pose proof (enc_eq R r i). pose proof (enc_eq R (r+1) (i/2)).
  replace (R + 1 - (r + 1)) with (R - r) in * by lia.
  rewrite ?slot_pow, ?pow_S in * by lia.
  assert (2 ^ (R - r) <= 2 ^ R) by (apply pow_mono; lia).
  replace (2 ^ R) with (1 * 2 ^ R) by lia.
  rewrite lor_disjoint; lia.
Qed.

Lemma LeftChild_ok r i : slot R (r + 1) i -> LeftChild n (enc R (r + 1) i) = Ok (enc R r (2 * i)).
Proof.
  intros Hs. pose proof (enc_lt64 _ _ Hs). destruct Hs as [? ?]. pose proof R62.
  unfold LeftChild. rewrite shl64_ok by lia. cbn [bind]. rewrite MaxNodes_ok. cbn [bind]. f_equal.
  rewrite land_mask, w64_mod by lia. change (2 ^ 1) with 2.
  pose proof (enc_eq R r (2*i)). pose proof (enc_eq R (r+1) i).
  replace (R + 1 - (r + 1)) with (R - r) in * by lia.
  rewrite slot_pow, !pow_S in * by lia.
  replace (R - r) with (R - (r+1) + 1) in * by lia. rewrite ?pow_S in *.
  symmetry. apply N.mod_unique with 1; lia.
Qed.

Lemma Child_ok r i b : slot R (r + 1) i -> b < 2 ->
  Child n (enc R (r + 1) i) b = Ok (enc R r (2 * i + b)).
Proof.
  intros Hs ?. unfold Child. rewrite LeftChild_ok by done. cbn [bind]. f_equal.
  destruct (decide (b = 0)) as [->|]; [rewrite N.lor_0_r; f_equal; lia|].
  replace b with 1 by lia. destruct Hs. rewrite lor_even; [unfold enc; lia|].
  rewrite enc_even by lia. lia.
Qed.

Lemma Ancestor_ok r i k : slot R r i -> r + k <= R ->
  Ancestor n (enc R r i) k = Ok (enc R (r + k) (i / 2 ^ k)).
Proof.
  intros Hs ?. pose proof (enc_lt64 _ _ Hs) as H64. destruct Hs as [? ?]. pose proof R62.
  unfold Ancestor. destruct (N.eqb_spec k 0) as [->|].
  { rewrite N.add_0_r. change (2 ^ 0) with 1. by rewrite N.div_1_r. }
  rewrite MaxNodes_ok. cbn [bind]. rewrite shr64_ok by lia. cbn [bind].
  rewrite int_sub_ok by lia. cbn [bind]. rewrite shl64_ok by lia. cbn [bind]. f_equal.
  rewrite land_mask, lor_mod, w64_mod by lia.
  replace (R - (k - 1)) with (R + 1 - k) by lia.
  rewrite ones_shift_mod by lia.
  pose proof (enc_eq R r i). pose proof (enc_eq R (r+k) (i / 2^k)).
  pose proof (pow_pos k). pose proof (pow_split (R + 1) k ltac:(lia)) as HR.
  pose proof (pow_split (R + 1 - r) k ltac:(lia)) as Hr.
  replace (R + 1 - r - k) with (R + 1 - (r + k)) in * by lia.
  assert (Hd : enc R r i / 2 ^ k + 2 ^ (R + 1 - (r + k)) = 2 ^ (R + 1 - k) + i / 2 ^ k).
  { assert (enc R r i = (2 ^ (R+1-k) - 2 ^ (R+1-(r+k))) * 2 ^ k + i) as He.
    { assert (2 ^ (R + 1 - (r + k)) <= 2 ^ (R + 1 - k)) by (apply pow_mono; lia). nia. }
    rewrite He. rewrite N.div_add_l by lia.
    assert (2 ^ (R + 1 - (r + k)) <= 2 ^ (R + 1 - k)) by (apply pow_mono; lia). lia. }
  assert (i / 2 ^ k < 2 ^ (R + 1 - (r + k))).
  { apply N.div_lt_upper_bound; [lia|]. rewrite (slot_pow R r) in Hr by lia. nia. }
  rewrite (N.mod_small (enc R r i / 2 ^ k)).
  2: { assert (2 ^ (R + 1 - k) <= 2 ^ (R + 1)) by (apply pow_mono; lia). lia. }
  assert (Hc : 2 ^ (R + 1) - 2 ^ (R + 1 - k) = (2 ^ k - 1) * 2 ^ (R + 1 - k)).
  { rewrite (pow_split (R + 1) k) by lia. rewrite N.mul_sub_distr_r. clear. lia. }
  rewrite Hc.
  rewrite lor_disjoint by lia. nia.
Qed.

Lemma LeftDescendant_ok r i k : slot R (r + k) i ->
  LeftDescendant n (enc R (r + k) i) k = Ok (enc R r (i * 2 ^ k)).
Proof.
  intros Hs. pose proof (enc_lt64 _ _ Hs). destruct Hs as [? ?]. pose proof R62.
  unfold LeftDescendant. destruct (N.eqb_spec k 0) as [->|].
  { rewrite N.add_0_r. change (2 ^ 0) with 1. by rewrite N.mul_1_r. }
  rewrite MaxNodes_ok. cbn [bind]. rewrite shl64_ok by lia. cbn [bind]. f_equal.
  rewrite land_mask, w64_mod by lia.
  pose proof (enc_eq R (r+k) i). pose proof (enc_eq R r (i * 2^k)).
  pose proof (pow_split (R + 1 - r) k ltac:(lia)) as Hr.
  replace (R + 1 - r - k) with (R + 1 - (r + k)) in * by lia.
  pose proof (pow_pos k). pose proof (pow_pos (R+1)).
  assert (2 ^ (R + 1 - (r + k)) <= 2 ^ (R + 1)) by (apply pow_mono; lia).
  pose proof (slot_pow R (r + k) ltac:(lia)).
  symmetry. apply N.mod_unique with (2 ^ k - 1).
  - assert (i * 2 ^ k < 2 ^ (R + 1 - r)) by nia. lia.
  - assert (enc R (r + k) i * 2 ^ k + 2 ^ (R + 1 - (r + k)) * 2 ^ k = 2 ^ (R + 1) * 2 ^ k + i * 2 ^ k) by nia.
    rewrite N.mul_sub_distr_l. nia.
Qed.

Lemma DetectRow_ok r i : slot R r i -> DetectRow n (enc R r i) = Ok r.
Proof.
  intros Hs. pose proof Hs as [? ?]. pose proof R62. unfold DetectRow. rewrite shl64_ok by lia.
  rewrite (N.mul_1_l (2 ^ R)), w64_small by (apply pow_R_64; lia). cbn [bind].
  pose proof (detect_loop_ok R (N.to_nat r) 64 0 i) as Hd.
  rewrite N2Nat.id, N.add_0_r, N.sub_0_r in Hd. apply Hd; [done|lia].
Qed.

Lemma RowOffsetRow_ok r : r <= R -> RowOffsetRow n r = Ok (enc R r 0).
Proof.
  intros. pose proof R62. unfold RowOffsetRow. rewrite MaxNodes_ok. cbn [bind].
  rewrite int_sub_ok by lia. cbn [bind]. rewrite shl64_ok by lia. cbn [bind]. f_equal.
  rewrite land_mask, w64_mod by lia. pose proof (enc_eq R r 0).
  pose proof (pow_pos (R + 1 - r)).
  assert (2 ^ (R + 1 - r) <= 2 ^ (R + 1)) by (apply pow_mono; lia).
  rewrite two64_pow. pose proof (pow_split 64 (R + 1) ltac:(lia)).
  pose proof (pow_pos (64 - (R + 1))).
  symmetry. apply N.mod_unique with (2 ^ (64 - (R + 1)) * 2 ^ (R + 1 - r) - 1); [lia|]. nia.
Qed.

Lemma RowOffset_ok r i : slot R r i -> RowOffset n (enc R r i) = Ok (enc R r 0).
Proof. intros Hs. unfold RowOffset. rewrite DetectRow_ok by done. destruct Hs. by apply RowOffsetRow_ok. Qed.

Lemma root_position_ok r m : r <= R -> m < 2 ^ (R + 1) ->
  root_position r m R = Ok (enc R r (2 * (m / 2 ^ (r + 1)))).
Proof.
  intros. pose proof R62. unfold root_position.
  rewrite shl64_ok by lia. cbn [bind]. rewrite <- pow_S, w64_small by (apply pow_R_64; lia).
  pose proof (pow_pos (R+1)). rewrite sub64_small; [|lia|apply pow_R_64; lia].
  rewrite shl64_ok by lia. cbn [bind]. rewrite shr64_ok by lia. cbn [bind].
  rewrite int_sub_ok by lia. cbn [bind]. rewrite shl64_ok by lia. cbn [bind]. f_equal.
  assert (Hb : N.land m (w64 ((2 ^ (R + 1) - 1) * 2 ^ (r + 1))) = m / 2 ^ (r + 1) * 2 ^ (r + 1)).
  { apply N.bits_inj. intros j. rewrite N.land_spec.
    unfold w64. rewrite two64_pow.
    destruct (N.lt_ge_cases j (r + 1)).
    - rewrite N.mul_pow2_bits_low by done.
      destruct (N.lt_ge_cases j 64).
      + rewrite N.mod_pow2_bits_low by done. rewrite N.mul_pow2_bits_low by done. apply andb_false_r.
      + rewrite N.mod_pow2_bits_high by done. apply andb_false_r.
    - rewrite N.mul_pow2_bits_high by done. rewrite <- N.shiftr_div_pow2, N.shiftr_spec by lia.
      replace (j - (r + 1) + (r + 1)) with j by lia.
      destruct (N.lt_ge_cases j (R + 1)).
      + rewrite N.mod_pow2_bits_low by lia. rewrite N.mul_pow2_bits_high by done.
        replace (2 ^ (R + 1) - 1) with (N.ones (R+1)) by (rewrite N.ones_equiv; lia).
        rewrite N.ones_spec_low by lia. apply andb_true_r.
      + assert (N.testbit m j = false) as ->; [|done].
        destruct (decide (m = 0)) as [->|]; [apply N.bits_0|].
        apply N.bits_above_log2. apply N.log2_lt_pow2; [lia|].
        assert (2 ^ (R + 1) <= 2 ^ j) by (apply pow_mono; lia). lia. }
  rewrite Hb. rewrite land_mask, lor_mod, w64_mod by lia.
  rewrite ones_shift_mod by lia.
  replace (m / 2 ^ (r + 1) * 2 ^ (r + 1) / 2 ^ r) with (2 * (m / 2 ^ (r + 1))).
  2: { rewrite (pow_S r). pose proof (pow_pos r).
       replace (m / (2 * 2 ^ r) * (2 * 2 ^ r)) with (2 * (m / (2 * 2 ^ r)) * 2 ^ r) by lia.
       by rewrite N.div_mul by lia. }
  set (q := m / 2 ^ (r + 1)).
  assert (2 * q < 2 ^ (R + 1 - r)).
  { pose proof (pow_split (R + 1) (r + 1) ltac:(lia)) as Hp.
    assert (q < 2 ^ (R + 1 - (r + 1))).
    { apply N.div_lt_upper_bound; [pose proof (pow_pos (r+1)); lia|]. lia. }
    replace (R + 1 - r) with (R + 1 - (r + 1) + 1) by lia. rewrite pow_S. lia. }
  assert (2 ^ (R + 1 - r) <= 2 ^ (R + 1)) by (apply pow_mono; lia).
  rewrite (N.mod_small (2 * q)) by lia.
  pose proof (pow_split (R + 1) (R + 1 - r) ltac:(lia)) as Hp.
  replace (2 ^ (R + 1) - 2 ^ (R + 1 - r)) with ((2 ^ (R + 1 - (R + 1 - r)) - 1) * 2 ^ (R + 1 - r))
    by (pose proof (pow_pos (R + 1 - (R + 1 - r))); nia).
  rewrite lor_disjoint by done. pose proof (enc_eq R r (2 * q)).
  pose proof (pow_pos (R + 1 - (R + 1 - r))). nia.
Qed.

Lemma RootPosition_ok r : r <= R -> RootPosition n r = Ok (enc R r (2 * (n / 2 ^ (r + 1)))).
Proof.
  intros. unfold RootPosition. apply root_position_ok; [done|].
  pose proof (NumRows_bound n). rewrite pow_S. pose proof (pow_pos R). lia.
Qed.

End Rows.
