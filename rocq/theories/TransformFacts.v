(** * TransformFacts: what Transform computes, on indices (proofs) *)
From stdpp Require Import sorting.
From Verif Require Import Base StateModel PosSpec PosFacts PathFacts MerkleSpec ForestFacts RowFacts.
From Coq Require Import ZifyBool ZifyNat ZifyN.
Ltac Zify.zify_post_hook ::= idtac.
Ltac dlia := zify; Z.div_mod_to_equations; lia.

Lemma pdead_parity m ps : Nat.odd (length (pdead m ps)) = Nat.odd (length (singles m ps)).
Proof.
  revert m. induction ps as [|[[a|] [b|]] ps IH]; intros m; cbn [pdead singles hole app length]; [done|..];
    rewrite ?Nat.odd_succ, <- ?Nat.negb_odd, ?IH; try done. by rewrite Nat.odd_succ, <- Nat.negb_odd, IH, negb_involutive.
Qed.
Lemma pdead_lt m ps i : i ∈ pdead m ps -> i < 2 * (m + size ps).
Proof.
  unfold size. revert m. induction ps as [|[x y] ps IH]; intros m; cbn [pdead length]; [by intros ?%elem_of_nil|].
  rewrite !elem_of_app. intros [Hx|[Hy|Hz]].
  - destruct x; [by apply elem_of_nil in Hx|]. apply elem_of_list_singleton in Hx. lia.
  - destruct y; [by apply elem_of_nil in Hy|]. apply elem_of_list_singleton in Hy. lia.
  - apply IH in Hz. lia.
Qed.
Lemma make_swaps_ok R j ts root : j <= R ->
  make_swaps_loop (enc R j <$> ts) =
    ((λ s : N * N, mk_swap (enc R j s.1) (enc R j s.2)) <$> swl false ts None,
     if Nat.odd (length ts) then from_option (fun t => [enc R j t]) [] (last ts) else []) /\
  swl false ts root = swl false ts None ++
    (if Nat.odd (length ts) then match root, last ts with Some r, Some t => [(r, t)] | _, _ => [] end else []).
Proof.
  intros Hj. induction ts as [|t|t t' ts IH] using pair_up_ind.
  - done.
  - cbn. by destruct root.
  - change (swl false (t :: t' :: ts) root) with ((sib t', t) :: swl false ts root).
    change (swl false (t :: t' :: ts) None) with ((sib t', t) :: swl false ts None).
    rewrite !fmap_cons. cbn [make_swaps_loop]. destruct IH as [IH1 IH2]. rewrite IH1. rewrite IH2 at 1.
    assert (El : Nat.odd (length ts) = true -> last (t :: t' :: ts) = last ts).
    { destruct ts; done. }
    assert (Eo : Nat.odd (length (t :: t' :: ts)) = Nat.odd (length ts)).
    { cbn [length]. by rewrite Nat.odd_succ, Nat.even_succ. }
    rewrite Eo. cbn [fst snd app]. rewrite Sibling_ok by done.
    destruct (Nat.odd (length ts)); [rewrite El by done|]; done.
Qed.

Definition sws (R j : N) (L : list cell) : list swap :=
  (λ s : N * N, mk_swap (enc R j s.1) (enc R j s.2)) <$> rsws L.
Definition col (R j : N) (L : list cell) (y : N) : swap :=
  match colfrom L with Some f => mk_collapse (enc R j f) (enc R j y) true | None => mk_swap 0 0 end.

Lemma xor_sum a b k : a < 2 ^ k -> b * 2 ^ k + a = N.lxor (b * 2 ^ k) a.
Proof.
  intros Ha. assert (Hz : N.land a (b * 2 ^ k) = 0).
  { apply N.bits_inj. intros j. rewrite N.land_spec, N.bits_0.
    destruct (N.lt_ge_cases j k) as [?|?].
    - rewrite N.mul_pow2_bits_low by done. apply andb_false_r.
    - destruct (decide (a = 0)) as [->|]; [by rewrite N.bits_0|].
      rewrite (N.bits_above_log2 a); [done|]. apply N.log2_lt_pow2 in Ha; lia. }
  rewrite N.add_comm, N.lxor_comm. by apply N.add_nocarry_lxor.
Qed.
Lemma lxor_lt a b k : a < 2 ^ k -> b < 2 ^ k -> N.lxor a b < 2 ^ k.
Proof.
  intros Ha Hb. destruct (decide (N.lxor a b = 0)) as [->|Hx]; [apply pow_pos|].
  apply N.log2_lt_pow2; [lia|]. pose proof (N.log2_lxor a b) as Hl.
  destruct (decide (k = 0)) as [->|Hk]; [change (2 ^ 0) with 1 in *; assert (a = 0) as -> by lia; assert (b = 0) as -> by lia; done|].
  assert (N.log2 a < k) by (destruct (decide (a = 0)) as [->|]; [cbn; lia|apply N.log2_lt_pow2; lia]).
  assert (N.log2 b < k) by (destruct (decide (b = 0)) as [->|]; [cbn; lia|apply N.log2_lt_pow2; lia]).
  lia.
Qed.
Lemma lxor_split p q a b k : a < 2 ^ k -> b < 2 ^ k ->
  N.lxor (p * 2 ^ k + a) (q * 2 ^ k + b) = N.lxor p q * 2 ^ k + N.lxor a b.
Proof.
  intros Ha Hb. rewrite !xor_sum by (done || by apply lxor_lt).
  rewrite <- !N.shiftl_mul_pow2, N.shiftl_lxor.
  rewrite !N.lxor_assoc. f_equal. rewrite <- !N.lxor_assoc. f_equal. apply N.lxor_comm.
Qed.
Definition lift (d : N) (g : N -> N) (x : N) : N := g (x / 2 ^ d) * 2 ^ d + x mod 2 ^ d.
Lemma lift_lift d g g' x : lift d g' (lift d g x) = lift d (fun y => g' (g y)) x.
Proof.
  unfold lift. pose proof (pow_pos d) as Hp. remember (2 ^ d) as P eqn:EP. clear EP.
  pose proof (N.mod_lt x P ltac:(lia)) as Hm. rewrite N.div_add_l by lia.
  rewrite (N.div_small (x mod P)) by done. rewrite N.add_0_r. f_equal.
  rewrite N.add_comm, N.mod_add by lia. by apply N.mod_small.
Qed.
Lemma lift_id d g x : (forall y, g y = y) -> lift d g x = x.
Proof. intros Hg. unfold lift. rewrite Hg. rewrite N.mul_comm. symmetry. apply N.div_mod. pose proof (pow_pos d). lia. Qed.

Definition rowat (L0 : list cell) (c : nat) : list cell := Nat.iter c next_row L0.
Lemma rowat_S L0 c : rowat L0 (S c) = next_row (rowat L0 c).
Proof. done. Qed.
Lemma rowat_size L0 c : size (rowat L0 c) = size L0 / 2 ^ N.of_nat c.
Proof.
  induction c as [|c IH]; [by rewrite N.div_1_r|]. rewrite rowat_S, next_row_size, IH.
  replace (N.of_nat (S c)) with (N.of_nat c + 1) by lia. by rewrite div_pow_S.
Qed.
Lemma bit_le L : bit L <= 1.
Proof. unfold bit. destruct (colfrom L); lia. Qed.
Lemma alive_half L : alive (next_row L) = alive L / 2 /\ bit L = alive L mod 2.
Proof. pose proof (alive_next L) as Ha. pose proof (bit_le L). dlia. Qed.
Lemma rowat_alive L0 c : alive (rowat L0 c) = alive L0 / 2 ^ N.of_nat c.
Proof.
  induction c as [|c IH]; [by rewrite N.div_1_r|]. rewrite rowat_S. destruct (alive_half (rowat L0 c)) as [-> _]. rewrite IH.
  replace (N.of_nat (S c)) with (N.of_nat c + 1) by lia. by rewrite div_pow_S.
Qed.
Lemma ends_range L x : x ∈ ends (rsws L) -> x < size L.
Proof.
  intros Hx. pose proof (pair_up_left L) as Hp. fold (rps L) in Hp. apply swl_ends in Hx as [(t & Ht & E)|Er].
  - apply rsing_half in Ht. dlia.
  - pose proof (ri_half _ _ Er) as H1. pose proof (ri_even _ _ Er) as H2.
    unfold ri in Er. destruct (pair_up L).2; [lia|done].
Qed.
Lemma colfrom_range L f : colfrom L = Some f -> f < size L.
Proof.
  intros Hf. pose proof (pair_up_left L) as Hp. fold (rps L) in Hp. unfold colfrom in Hf.
  assert (Hr : ri L = Some f -> f < size L).
  { intros Er. pose proof (ri_half _ _ Er) as H1. pose proof (ri_even _ _ Er) as H2.
    unfold ri in Er. destruct (pair_up L).2; [lia|done]. }
  destruct (Nat.even _); [by apply Hr|]. destruct (ri L); [done|]. destruct (last (rsing L)) as [t|] eqn:El; [|done].
  cbn in Hf. apply (inj Some) in Hf. assert (Ht : t ∈ rsing L) by (by apply last_Some_elem_of).
  apply rsing_half in Ht. pose proof (sib_half t). subst f. dlia.
Qed.

Lemma sw_slot R m A B a : slot R m A -> slot R m B -> slot R m a -> slot R m (sw A B a).
Proof. intros HA HB Ha. unfold sw. destruct (a =? A); [done|]. destruct (a =? B); done. Qed.

Section Trans.
Context (n : N) (Hn : n <= 2 ^ 62).
Notation R := (NumRows n).

Lemma row_step k j nn L : j < R -> nn <= n -> size L = n / 2 ^ j -> dead 0 L <> [] ->
  transform_rows (S k) j n nn (enc R j <$> dead 0 L) =
  let* r := transform_rows k (j + 1) n nn (enc R (j + 1) <$> dead 0 (next_row L)) in
  Ok (sws R j L :: r.1, col R j L (2 * (nn / 2 ^ (j + 1))) :: r.2).
Proof.
  intros Hj Hnn HL Hd. pose proof (R62 n Hn) as HR.
  assert (Hps : size (rps L) = n / 2 ^ (j + 1)) by (rewrite size_rps, HL; symmetry; apply div_pow_S).
  assert (Hnb : n < 2 ^ (R + 1)).
  { pose proof (NumRows_bound n). rewrite pow_S. pose proof (pow_pos R). lia. }
  assert (Hsl : forall k, k < size (rps L) -> slot R (j + 1) (0 + k)).
  { intros i Hi. split; [lia|]. rewrite N.add_0_l. eapply N.lt_le_trans; [exact Hi|]. rewrite Hps.
    apply N.div_le_upper_bound; [pose proof (pow_pos (j + 1)); lia|]. rewrite <- N.pow_add_r.
    replace (j + 1 + (R - (j + 1))) with R by lia. apply NumRows_bound. }
  (* the targets without the root *)
  assert (Hcur : exists b, vec_back (enc R j <$> dead 0 L) = Ok b /\
    let popped := N.testbit n j && (b =? enc R j (2 * (n / 2 ^ (j + 1)))) in
    (if popped then removelast (enc R j <$> dead 0 L) else (enc R j <$> dead 0 L)) = (enc R j <$> pdead 0 (rps L)) /\
    (if popped then false else N.testbit n j) = (if ri L then true else false)).
  { pose proof (dead_pdead L 0) as Hdp. change (2 * 0) with 0 in Hdp.
    rewrite testbit_mod, <- HL, <- Hps, (pair_up_left L). fold (rps L).
    unfold ri. fold (rps L) in Hdp. remember (pair_up L).2 as r2 eqn:E2. clear E2. rewrite Hdp in *.
    destruct r2 as [[c|]|].
    - rewrite app_nil_r in *. assert (exists i, last (pdead 0 (rps L)) = Some i) as [i Hi].
      { destruct (last _) eqn:El; [by eexists|]. apply last_None in El. done. }
      assert (Hil : i < 2 * (0 + size (rps L))) by (apply pdead_lt with (m := 0); by apply last_Some_elem_of).
      exists (enc R j i). unfold vec_back. rewrite fmap_last, Hi. cbn [fmap option_fmap option_map].
      split; [done|]. destruct (N.eqb_spec (enc R j i) (enc R j (2 * size (rps L)))) as [Ei%enc_inj1|_]; [lia|].
      rewrite andb_false_r. split; [done|]. apply N.eqb_eq. dlia.
    - exists (enc R j (2 * size (rps L))). unfold vec_back. rewrite fmap_last, last_snoc.
      cbn [fmap option_fmap option_map]. change (0 + N.of_nat (length (rps L))) with (size (rps L)).
      split; [done|]. rewrite N.eqb_refl, andb_true_r.
      replace ((2 * size (rps L) + 1) mod 2 =? 1) with true by (symmetry; apply N.eqb_eq; dlia).
      split; [|done]. rewrite fmap_app. cbn [fmap list_fmap]. by rewrite removelast_last.
    - rewrite app_nil_r in *. assert (exists i, last (pdead 0 (rps L)) = Some i) as [i Hi].
      { destruct (last _) eqn:El; [by eexists|]. apply last_None in El. done. }
      exists (enc R j i). unfold vec_back. rewrite fmap_last, Hi. cbn [fmap option_fmap option_map].
      split; [done|].
      replace ((2 * size (rps L) + 0) mod 2 =? 1) with false by (symmetry; apply N.eqb_neq; dlia).
      done. }
  destruct Hcur as (b & Hb & Hcur & Hpres).
  remember (dead 0 (next_row L)) as D' eqn:ED'.
  assert (Hne : exists x l, enc R j <$> dead 0 L = x :: l).
  { destruct (dead 0 L); [done|]. cbn. by do 2 eexists. }
  destruct Hne as (x0 & l0 & Ecur). cbn [transform_rows]. rewrite Ecur in *.
  rewrite HasRoot_ok by lia. cbn [bind]. rewrite RootPosition_ok by (done || lia). cbn [bind]. rewrite Hb. cbn [bind].
  cbv zeta in Hcur, Hpres. cbv zeta. rewrite Hcur, Hpres.
  rewrite fmap_length, pdead_parity. fold (rsing L).
  unfold ComputeNextRowTargets. rewrite (cnrt_ok n Hn j Hj (rps L) 0 0 Hsl). cbn [bind fst snd].
  fold (rsing L). change (Nat.odd 0) with false.
  (* parents *)
  remember (Nat.odd (length (rsing L))) as o eqn:Eo.
  assert (Hpar : exists ps, (if o && negb (if ri L then true else false)
      then let* b := vec_back (enc R j <$> rsing L) in let* p := Parent n b in
           Ok ((enc R (j + 1) <$> nextdead false 0 (rps L)) ++ [p], enc R j <$> rsing L)
      else Ok (enc R (j + 1) <$> nextdead false 0 (rps L), enc R j <$> rsing L)) =
        Ok (ps, enc R j <$> rsing L) /\ sortN ps = enc R (j + 1) <$> D').
  { assert (HsD : StronglySorted N.lt (enc R (j + 1) <$> D')).
    { apply sorted_fmap; [apply enc_mono|]. rewrite ED'. apply dead_sorted. }
    pose proof (cont_root L) as Hcr. destruct (o && negb _) eqn:Eb.
    - apply andb_true_iff in Eb as [-> Er]. destruct (ri L); [done|].
      assert (exists t, last (rsing L) = Some t) as [t Et].
      { destruct (last _) eqn:El; [by eexists|]. apply last_None in El. rewrite El in Eo. done. }
      assert (Ht : t ∈ rsing L) by (by apply last_Some_elem_of).
      eexists. unfold vec_back. rewrite fmap_last, Et. cbn [fmap option_fmap option_map bind].
      rewrite Parent_ok; [|done|]; [cbn [bind]|].
      2:{ apply rsing_half in Ht. apply (Hsl (t / 2)) in Ht. rewrite N.add_0_l in Ht.
          destruct (slot_pair n Hn j Hj _ Ht) as [H1 H2].
          destruct (decide (t = 2 * (t / 2))) as [->|]; [done|].
          replace t with (2 * (t / 2) + 1); [done|]. dlia. }
      split; [done|]. apply sortN_unique; [done|].
      rewrite ED'. unfold next_row. rewrite Hcr.
      rewrite (refill_dead_last (pair_up L).1 false 0 t); [|done|done].
      by rewrite fmap_app.
    - eexists. split; [done|]. rewrite sortN_id.
      + f_equal. rewrite ED'. unfold next_row. symmetry. apply refill_dead_full.
        destruct (ri L); [left; apply Hcr|right; change (Nat.odd (length (rsing L)) = false); rewrite <- Eo].
        by destruct o.
      + replace (nextdead false 0 (rps L)) with D'; [done|]. rewrite ED'. unfold next_row. apply refill_dead_full.
        destruct (ri L); [left; apply Hcr|right; change (Nat.odd (length (rsing L)) = false); rewrite <- Eo].
        by destruct o. }
  destruct Hpar as (ps & -> & Hps'). cbn [bind fst snd]. rewrite Hps'.
  (* swaps *)
  assert (Hms : MakeSwaps (enc R j <$> rsing L) o (if ri L then true else false) (enc R j (2 * (n / 2 ^ (j + 1)))) = Ok (sws R j L)).
  { unfold MakeSwaps. destruct (make_swaps_ok R j (rsing L) (ri L) ltac:(lia)) as [E1 E2]. rewrite E1.
    unfold sws, rsws. rewrite E2, <- Eo. destruct o.
    - assert (exists t, last (rsing L) = Some t) as [t Et].
      { destruct (last _) eqn:El; [by eexists|]. apply last_None in El. rewrite El in Eo. done. }
      rewrite Et. cbn [from_option andb]. destruct (ri L) as [r|] eqn:Er.
      + rewrite fmap_app. cbn [fmap list_fmap fst snd].
        by rewrite (ri_even _ _ Er), (ri_half _ _ Er), Hps.
      + by rewrite app_nil_r.
    - cbn [andb]. by rewrite app_nil_r. }
  rewrite Hms. cbn [bind].
  (* collapse *)
  assert (Hmc : MakeCollapse n (enc R j <$> rsing L) o (if ri L then true else false) j nn = Ok (col R j L (2 * (nn / 2 ^ (j + 1))))).
  { unfold MakeCollapse. rewrite root_position_ok by (done || lia). cbn [bind]. unfold col, colfrom.
    rewrite <- Nat.negb_odd, <- Eo. destruct o; cbn [negb andb].
    - assert (exists t, last (rsing L) = Some t) as [t Et].
      { destruct (last _) eqn:El; [by eexists|]. apply last_None in El. rewrite El in Eo. done. }
      destruct (ri L) as [r|] eqn:Er; [done|]. cbn [negb]. rewrite fmap_last, Et. cbn [fmap option_fmap option_map].
      by rewrite Sibling_ok by lia.
    - destruct (ri L) as [r|] eqn:Er; [|done]. rewrite RootPosition_ok by (done || lia). cbn [bind].
      by rewrite (ri_even _ _ Er), (ri_half _ _ Er), Hps. }
  rewrite Hmc. done.
Qed.

(** ** Exclusive or of positions *)
Lemma enc_split r i : r <= R -> enc R r i = (2 ^ r - 1) * 2 ^ (R + 1 - r) + i.
Proof.
  intros Hr. pose proof (enc_eq R r i ltac:(lia)) as He.
  replace (2 ^ (R + 1)) with (2 ^ r * 2 ^ (R + 1 - r)) in He by (rewrite <- N.pow_add_r; f_equal; lia).
  pose proof (pow_pos r). pose proof (pow_pos (R + 1 - r)). nia.
Qed.
Lemma slot_big r i : slot R r i -> i < 2 ^ (R + 1 - r).
Proof. intros [Hr Hi]. replace (R + 1 - r) with (R - r + 1) by lia. rewrite pow_S. lia. Qed.
Lemma enc_lxor r a b : slot R r a -> slot R r b -> N.lxor (enc R r a) (enc R r b) = N.lxor a b.
Proof.
  intros Ha Hb. assert (Hr : r <= R) by apply Ha. rewrite !enc_split by done.
  rewrite lxor_split by (by apply slot_big). rewrite N.lxor_nilpotent. lia.
Qed.

Lemma lift_slot d g r x : (forall a, slot R (r + d) a -> slot R (r + d) (g a)) -> r + d <= R -> slot R r x -> slot R r (lift d g x).
Proof.
  intros Hg Hd [Hr Hx]. split; [done|]. unfold lift.
  assert (E : 2 ^ (R - r) = 2 ^ (R - (r + d)) * 2 ^ d) by (rewrite <- N.pow_add_r; f_equal; lia).
  assert (slot R (r + d) (x / 2 ^ d)) as [_ H1]%Hg.
  { split; [lia|]. apply N.div_lt_upper_bound; [pose proof (pow_pos d); lia|]. rewrite N.mul_comm. by rewrite <- E. }
  rewrite E. pose proof (N.mod_lt x (2 ^ d)) as Hm. pose proof (pow_pos d). nia.
Qed.
Lemma SwapIfDescendant_ok c m x A B F s : c + m <= R -> slot R c x -> slot R (c + m) A -> slot R (c + m) B ->
  m_from s = enc R (c + m) A -> m_to s = enc R (c + m) B ->
  SwapIfDescendant n s (mk_collapse F (enc R c x) true) (c + m) c =
    Ok (mk_collapse F (enc R c (lift m (sw A B) x)) true).
Proof.
  intros Hm Hx HA HB Ef Et. pose proof (R62 n Hn) as HR. unfold SwapIfDescendant, mk_collapse. cbn [m_to m_from m_collapse m_is_range_swap m_range].
  replace (c + m - c) with m by lia. rewrite Ancestor_ok by done. cbn [bind]. rewrite Ef, Et.
  assert (He : forall u v, (enc R (c + m) u =? enc R (c + m) v) = (u =? v)).
  { intros u v. destruct (N.eqb_spec u v) as [->|Hu]; [by apply N.eqb_refl|]. apply N.eqb_neq. by intros E%enc_inj1. }
  rewrite !He. pose proof (pow_pos m) as Hpm.
  assert (Hxa : x = x / 2 ^ m * 2 ^ m + x mod 2 ^ m) by (rewrite N.mul_comm; apply N.div_mod; lia).
  assert (Hxm : x mod 2 ^ m < 2 ^ m) by (apply N.mod_lt; lia).
  unfold lift. remember (x / 2 ^ m) as a eqn:Ea. remember (x mod 2 ^ m) as l eqn:El. 
  destruct (xorb (a =? A) (a =? B)) eqn:Ex.
  - rewrite shl64_ok by lia. cbn [bind]. do 2 f_equal.
    assert (Hl : N.lxor A B < 2 ^ (R - (c + m))) by (apply lxor_lt; [apply HA|apply HB]).
    assert (Hl2 : N.lxor A B * 2 ^ m < 2 ^ (R - c)).
    { replace (R - c) with (R - (c + m) + m) by lia. rewrite N.pow_add_r. nia. }
    rewrite enc_lxor, w64_small by (done || (pose proof (pow_R_64 (R - c)); lia)).
    rewrite (enc_split c x), (enc_split c (sw A B a * 2 ^ m + l)) by lia.
    replace (N.lxor A B * 2 ^ m) with (0 * 2 ^ (R + 1 - c) + N.lxor A B * 2 ^ m) by lia.
    assert (2 ^ (R - c) <= 2 ^ (R + 1 - c)) by (apply N.pow_le_mono_r; lia).
    rewrite lxor_split by (try (by apply slot_big); lia). rewrite N.lxor_0_r. f_equal.
    rewrite Hxa at 1. replace (N.lxor A B * 2 ^ m) with (N.lxor A B * 2 ^ m + 0) by lia.
    rewrite lxor_split by lia. rewrite N.lxor_0_r. do 2 f_equal.
    unfold sw. destruct (N.eqb_spec a A) as [H1|H1], (N.eqb_spec a B) as [H2|H2]; try done.
    + rewrite H1. rewrite <- N.lxor_assoc, N.lxor_nilpotent. apply N.lxor_0_l.
    + rewrite H2. rewrite N.lxor_comm, N.lxor_assoc, N.lxor_nilpotent. apply N.lxor_0_r.
  - do 3 f_equal. rewrite Hxa. do 2 f_equal. unfold sw.
    destruct (N.eqb_spec a A) as [H1|H1], (N.eqb_spec a B) as [H2|H2]; first [done|congruence].
Qed.

(** ** Rows *)
Context (L0 : list cell) (HL0 : size L0 = n).
Notation Lr := (rowat L0).
Notation nn := (alive L0).

Lemma row_slot c i : N.of_nat c <= R -> i < size (Lr c) -> slot R (N.of_nat c) i.
Proof.
  intros Hc Hi. split; [done|]. eapply N.lt_le_trans; [exact Hi|]. rewrite rowat_size, HL0.
  pose proof (pow_pos (N.of_nat c)). apply N.div_le_upper_bound; [lia|]. rewrite <- N.pow_add_r.
  replace (N.of_nat c + (R - N.of_nat c)) with R by lia. apply NumRows_bound.
Qed.
Lemma row_node c i : i < size (Lr c) <-> node n (N.of_nat c) i.
Proof.
  rewrite rowat_size, HL0. unfold node. pose proof (pow_pos (N.of_nat c)) as Hp. revert Hp.
  generalize (2 ^ N.of_nat c). intros P Hp. split; intros Hi.
  - pose proof (N.mul_div_le n P). nia.
  - assert (i + 1 <= n / P) by (apply N.div_le_lower_bound; lia). lia.
Qed.

Definition dest (c : nat) : N := 2 * (nn / 2 ^ (N.of_nat c + 1)).
Lemma dest_div c d : dest c / 2 ^ (d + 1) = nn / 2 ^ (N.of_nat c + 1 + d).
Proof.
  unfold dest. pose proof (pow_pos d). pose proof (pow_pos (N.of_nat c + 1)).
  rewrite (pow_S d). rewrite N.div_mul_cancel_l by lia. rewrite N.div_div by lia. by rewrite <- N.pow_add_r.
Qed.

Lemma transform_rows_ok k : forall c, (c + k)%nat = N.to_nat R ->
  exists h, (c <= h <= N.to_nat R)%nat /\ (forall i, (c <= i < h)%nat -> dead 0 (Lr i) <> []) /\
    (h = N.to_nat R \/ dead 0 (Lr h) = []) /\
    transform_rows k (N.of_nat c) n nn (enc R (N.of_nat c) <$> dead 0 (Lr c)) =
    Ok ((λ i : nat, sws R (N.of_nat i) (Lr i)) <$> seq c (h - c),
        (λ i : nat, col R (N.of_nat i) (Lr i) (dest i)) <$> seq c (h - c)).
Proof.
  induction k as [|k IH]; intros c Hc.
  - exists c. split; [lia|]. split; [lia|]. split; [left; lia|]. rewrite Nat.sub_diag. done.
  - destruct (decide (dead 0 (Lr c) = [])) as [E|E].
    + exists c. split; [lia|]. split; [lia|]. split; [by right|]. rewrite Nat.sub_diag, E. done.
    + destruct (IH (S c) ltac:(lia)) as (h & Hh & Hd & He & Ht). exists h. split; [lia|]. split.
      { intros i Hi. destruct (decide (i = c)) as [->|]; [done|]. apply Hd. lia. }
      split; [done|]. rewrite row_step; [|lia| |by rewrite rowat_size, HL0|done].
      2:{ rewrite <- HL0. apply alive_le. }
      change (next_row (Lr c)) with (Lr (S c)). replace (N.of_nat c + 1) with (N.of_nat (S c)) at 1 2 by lia.
      rewrite Ht. cbn [bind fst snd]. replace (h - c)%nat with (S (h - S c)) by lia. cbn [seq fmap list_fmap].
      do 2 f_equal.
Qed.

(** ** The conversion of the collapses *)
Definition cl (X : nat -> N) (c0 cnt : nat) : list swap := (λ c : nat, col R (N.of_nat c) (Lr c) (X c)) <$> seq c0 cnt.
Definition upd (m : nat) (g : N -> N) (X : nat -> N) (c : nat) : N :=
  if (c <? m)%nat then lift (N.of_nat (m - c)) g (X c) else X c.
Lemma cl_ext X X' c0 cnt : (forall c, (c0 <= c < c0 + cnt)%nat -> X c = X' c) -> cl X c0 cnt = cl X' c0 cnt.
Proof. intros He. apply list_fmap_ext. intros i c Hi. apply lookup_seq in Hi as [-> Hi]. rewrite He by lia. done. Qed.
Lemma SwapInRow_ok s A B m X : N.of_nat m <= R -> slot R (N.of_nat m) A -> slot R (N.of_nat m) B ->
  m_from s = enc R (N.of_nat m) A -> m_to s = enc R (N.of_nat m) B ->
  (forall c, (c < m)%nat -> slot R (N.of_nat c) (X c)) ->
  forall cnt c0, (m <= c0 + cnt)%nat ->
  SwapInRow n s (cl X c0 cnt) (N.of_nat c0) (N.of_nat m) = Ok (cl (upd m (sw A B) X) c0 cnt).
Proof.
  intros Hm HA HB Ef Et HX. induction cnt as [|cnt IH]; intros c0 Hc.
  - cbn [cl seq fmap list_fmap SwapInRow]. destruct (N.ltb_spec (N.of_nat c0) (N.of_nat m)); [lia|done].
  - unfold cl. cbn [seq]. rewrite !fmap_cons. fold (cl X (S c0) cnt). fold (cl (upd m (sw A B) X) (S c0) cnt).
    cbn [SwapInRow].
    destruct (N.ltb_spec (N.of_nat c0) (N.of_nat m)) as [Hlt|Hge].
    + replace (N.of_nat c0 + 1) with (N.of_nat (S c0)) by lia. rewrite IH by lia.
      assert (Hh : (if m_collapse (col R (N.of_nat c0) (Lr c0) (X c0))
                    then SwapIfDescendant n s (col R (N.of_nat c0) (Lr c0) (X c0)) (N.of_nat m) (N.of_nat c0)
                    else Ok (col R (N.of_nat c0) (Lr c0) (X c0))) = Ok (col R (N.of_nat c0) (Lr c0) (upd m (sw A B) X c0))).
      { unfold col. destruct (colfrom (Lr c0)) as [f|]; [|done]. cbn [m_collapse mk_collapse].
        replace (N.of_nat m) with (N.of_nat c0 + N.of_nat (m - c0)) by lia.
        unfold upd. destruct (Nat.ltb_spec c0 m); [|lia].
        apply (SwapIfDescendant_ok (N.of_nat c0) (N.of_nat (m - c0)) (X c0) A B (enc R (N.of_nat c0) f) s);
          replace (N.of_nat c0 + N.of_nat (m - c0)) with (N.of_nat m) by lia; try done. apply HX. lia. }
      rewrite Hh. done.
    + f_equal. unfold upd at 1. destruct (Nat.ltb_spec c0 m); [lia|]. f_equal. apply cl_ext.
      intros c Hcc. unfold upd. destruct (Nat.ltb_spec c m); [lia|done].
Qed.
Lemma upd_slot m g X : N.of_nat m <= R -> (forall a, slot R (N.of_nat m) a -> slot R (N.of_nat m) (g a)) ->
  (forall c, (c < m)%nat -> slot R (N.of_nat c) (X c)) -> (forall c, (c < m)%nat -> slot R (N.of_nat c) (upd m g X c)).
Proof.
  intros Hm Hg HX c Hc. unfold upd. destruct (Nat.ltb_spec c m); [|lia].
  apply lift_slot; [|lia|by apply HX]. by replace (N.of_nat c + N.of_nat (m - c)) with (N.of_nat m) by lia.
Qed.
Lemma fold_swaps_ok m h l : N.of_nat m <= R -> (m <= h)%nat -> (forall x, x ∈ ends l -> slot R (N.of_nat m) x) ->
  forall X, (forall c, (c < m)%nat -> slot R (N.of_nat c) (X c)) ->
  exists X', foldM (fun cs s => SwapInRow n s cs 0 (N.of_nat m)) (cl X 0 h)
    ((λ s : N * N, mk_swap (enc R (N.of_nat m) s.1) (enc R (N.of_nat m) s.2)) <$> l) = Ok (cl X' 0 h) /\
    (forall c, (c < m)%nat -> slot R (N.of_nat c) (X' c)) /\ (forall c, X' c = upd m (act l) X c).
Proof.
  intros Hm Hh. induction l as [|s l IH]; intros Hl X HX.
  - exists X. split; [done|]. split; [done|]. intros c. unfold upd. destruct (Nat.ltb_spec c m); [|done]. by rewrite lift_id.
  - rewrite ends_cons in Hl. assert (HA : slot R (N.of_nat m) s.1) by (apply Hl; by left).
    assert (HB : slot R (N.of_nat m) s.2) by (apply Hl; right; by left).
    cbn [fmap list_fmap foldM]. change 0 with (N.of_nat 0) at 2.
    rewrite (SwapInRow_ok _ s.1 s.2 m X) by (done || lia). cbn [bind].
    destruct (IH ltac:(intros x Hx; apply Hl; by do 2 right) (upd m (sw s.1 s.2) X)) as (X' & E & Hs & HX').
    { apply upd_slot; [done| |done]. intros a Ha. by apply sw_slot. }
    exists X'. split; [exact E|]. split; [done|]. intros c. rewrite HX'. unfold upd.
    destruct (Nat.ltb_spec c m); [|done]. by rewrite lift_lift.
Qed.

Definition Y (i : nat) : N := tailpos (N.to_nat R - i) (Lr i).
Context (h : nat) (HhR : (h <= N.to_nat R)%nat) (Hdead : forall i, (i < h)%nat -> dead 0 (Lr i) <> [])
  (Hend : h = N.to_nat R \/ dead 0 (Lr h) = []) (Hnn : nn < n).

Lemma Y_end : Y h = nn / 2 ^ N.of_nat h.
Proof.
  rewrite <- rowat_alive. unfold Y. destruct Hend as [->|E]; [by rewrite Nat.sub_diag|].
  rewrite tailpos_full by done. symmetry. by apply alive_full.
Qed.
Lemma Y_slot i : (i <= h)%nat -> slot R (N.of_nat i) (Y i).
Proof.
  intros Hi. destruct (decide (i = h)) as [->|Hne].
  - rewrite Y_end. split; [lia|]. apply N.div_lt_upper_bound; [pose proof (pow_pos (N.of_nat h)); lia|].
    rewrite <- N.pow_add_r. replace (N.of_nat h + (R - N.of_nat h)) with R by lia. pose proof (NumRows_bound n). lia.
  - apply row_slot; [lia|]. assert (Hx : Lr i !! N.to_nat (Y i) = Some None).
    { apply tailpos_dead; [|apply Hdead; lia]. rewrite rowat_size, HL0.
      pose proof (pow_pos (N.of_nat i)). apply N.div_le_upper_bound; [lia|]. rewrite <- N.pow_add_r.
      replace (N.of_nat i + N.of_nat (N.to_nat R - i)) with R by lia. apply NumRows_bound. }
    apply lookup_lt_Some in Hx. unfold size. lia.
Qed.
Lemma Y_step i : (i < N.to_nat R)%nat -> Y i = sigma (Lr i) (Y (S i)) (2 * Y (S i) + bit (Lr i)).
Proof. intros Hi. unfold Y. replace (N.to_nat R - i)%nat with (S (N.to_nat R - S i)) by lia. done. Qed.

Lemma convert_rows_ok m : (m < h)%nat -> forall X,
  (forall c, (c <= m)%nat -> X c = Y (S m) * 2 ^ (N.of_nat (m - c) + 1) + dest c mod 2 ^ (N.of_nat (m - c) + 1)) ->
  exists X', convert_rows m n ((λ i : nat, sws R (N.of_nat i) (Lr i)) <$> seq 0 h) (cl X 0 h) = Ok (cl X' 0 h) /\
    (forall c, (c <= m)%nat -> X' c = 2 * Y (S c)) /\ (forall c, (m < c)%nat -> X' c = X c).
Proof.
  induction m as [|m IH]; intros Hm X HX.
  - exists X. split; [done|]. split; [|done]. intros c Hc. assert (c = 0%nat) as -> by lia.
    rewrite HX by lia. change (2 ^ (N.of_nat (0 - 0) + 1)) with 2. unfold dest.
    generalize (nn / 2 ^ (N.of_nat 0 + 1)). intros q. dlia.
  - cbn [convert_rows].
    assert (HX0 : forall c, (c <= S m)%nat -> slot R (N.of_nat c) (X c)).
    { intros c Hc. rewrite HX by done. destruct (Y_slot (S (S m)) ltac:(lia)) as [H1 H2].
      split; [lia|]. pose proof (pow_pos (N.of_nat (S m - c) + 1)) as Hp.
      replace (R - N.of_nat c) with (R - N.of_nat (S (S m)) + (N.of_nat (S m - c) + 1)) by lia.
      rewrite (N.pow_add_r 2 (R - N.of_nat (S (S m)))). pose proof (N.mod_lt (dest c) (2 ^ (N.of_nat (S m - c) + 1)) ltac:(lia)).
      revert Hp H. generalize (2 ^ (N.of_nat (S m - c) + 1)). intros P Hp Hd. revert H2 Hd.
      generalize (2 ^ (R - N.of_nat (S (S m)))) (dest c mod P) (Y (S (S m))). clear. intros Q d y H2 Hd.
      assert ((y + 1) * P <= Q * P) by (apply N.mul_le_mono_r; lia). lia. }
    assert (Hva : vec_at ((λ i : nat, sws R (N.of_nat i) (Lr i)) <$> seq 0 h) (N.of_nat (S m)) = Ok (sws R (N.of_nat (S m)) (Lr (S m)))).
    { unfold vec_at. rewrite Nat2N.id, list_lookup_fmap, lookup_seq_lt by done. done. }
    rewrite Hva. cbn [bind].
    destruct (fold_swaps_ok (S m) h (rsws (Lr (S m))) ltac:(lia) ltac:(lia)) with (X := X) as (X1 & E1 & Hs1 & HX1).
    { intros x Hx%ends_range. apply row_slot; [lia|done]. }
    { intros c Hc. apply HX0. lia. }
    unfold sws. rewrite E1. cbn [bind].
    assert (Hva2 : vec_at (cl X1 0 h) (N.of_nat (S m)) = Ok (col R (N.of_nat (S m)) (Lr (S m)) (X1 (S m)))).
    { unfold vec_at, cl. rewrite Nat2N.id, list_lookup_fmap, lookup_seq_lt by done. done. }
    rewrite Hva2. cbn [bind].
    assert (HXm : X1 (S m) = 2 * Y (S (S m))).
    { rewrite HX1. unfold upd. rewrite Nat.ltb_irrefl. rewrite HX by lia. rewrite Nat.sub_diag.
      change (2 ^ (N.of_nat 0 + 1)) with 2. unfold dest.
      generalize (nn / 2 ^ (N.of_nat (S m) + 1)). intros q. dlia. }
    assert (Hc2 : exists X2, (if m_collapse (col R (N.of_nat (S m)) (Lr (S m)) (X1 (S m)))
        then SwapInRow n (col R (N.of_nat (S m)) (Lr (S m)) (X1 (S m))) (cl X1 0 h) 0 (N.of_nat (S m))
        else Ok (cl X1 0 h)) = Ok (cl X2 0 h) /\ forall c, X2 c = upd (S m) (sigma (Lr (S m)) (Y (S (S m)))) X c).
    { unfold col. destruct (colfrom (Lr (S m))) as [f|] eqn:Ef; cbn [m_collapse mk_collapse mk_swap].
      - eexists. split.
        + change 0 with (N.of_nat 0). apply (SwapInRow_ok _ f (X1 (S m)) (S m) X1); [lia| | |done|done| |lia].
          * apply row_slot; [lia|]. by apply colfrom_range.
          * rewrite HX1. unfold upd. rewrite Nat.ltb_irrefl. by apply HX0.
          * done.
        + intros c. rewrite HXm. unfold upd. rewrite HX1. unfold upd. destruct (Nat.ltb_spec c (S m)); [|done].
          rewrite lift_lift. unfold sigma. by rewrite Ef.
      - exists X1. split; [done|]. intros c. rewrite HX1. unfold upd. destruct (c <? S m)%nat; [|done].
        unfold sigma. by rewrite Ef. }
    destruct Hc2 as (X2 & E2 & HX2). rewrite E2. cbn [bind].
    destruct (IH ltac:(lia) X2) as (X' & E3 & H3 & H4).
    { intros c Hc. rewrite HX2. unfold upd. destruct (Nat.ltb_spec c (S m)); [|lia]. unfold lift.
      rewrite HX by lia. rewrite (Y_step (S m)) by lia.
      replace (S m - c)%nat with (S (m - c)) by lia. replace (N.of_nat (S (m - c))) with (N.of_nat (m - c) + 1) by lia.
      pose proof (dest_div c (N.of_nat (m - c))) as Hd.
      replace (N.of_nat c + 1 + N.of_nat (m - c)) with (N.of_nat (S m)) in Hd by lia.
      destruct (alive_half (Lr (S m))) as [_ Hb]. rewrite rowat_alive, <- Hd in Hb. rewrite Hb.
      rewrite (pow_S (N.of_nat (m - c) + 1)). pose proof (pow_pos (N.of_nat (m - c) + 1)) as Hp. revert Hp.
      generalize (2 ^ (N.of_nat (m - c) + 1)) (dest c) (Y (S (S m))). clear. intros P d y Hp.
      rewrite (N.mul_comm 2 P). rewrite N.mod_mul_r by lia.
      replace (y * (P * 2) + (d mod P + P * ((d / P) mod 2))) with (d mod P + (2 * y + (d / P) mod 2) * P) by lia.
      pose proof (N.mod_lt d P ltac:(lia)) as Hm.
      rewrite N.div_add, N.mod_add by lia. rewrite (N.div_small (d mod P)), N.mod_mod by lia. done. }
    exists X'. split; [done|]. split.
    + intros c Hc. destruct (decide (c = S m)) as [->|]; [|apply H3; lia].
      rewrite H4 by lia. rewrite HX2. unfold upd. rewrite Nat.ltb_irrefl. rewrite <- HXm, HX1. unfold upd. by rewrite Nat.ltb_irrefl.
    + intros c Hc. rewrite H4 by lia. rewrite HX2. unfold upd. destruct (Nat.ltb_spec c (S m)); [lia|done].
Qed.

(** The swaps of row [c], the collapse included. *)
Definition colpair (c : nat) : list (N * N) :=
  match colfrom (Lr c) with Some f => if f =? 2 * Y (S c) then [] else [(f, 2 * Y (S c))] | None => [] end.
Definition fin (c : nat) : list swap :=
  sws R (N.of_nat c) (Lr c) ++
  ((λ s : N * N, mk_collapse (enc R (N.of_nat c) s.1) (enc R (N.of_nat c) s.2) true) <$> colpair c).

Lemma append_ok X cnt : forall c0, (forall c, (c0 <= c < c0 + cnt)%nat -> X c = 2 * Y (S c)) ->
  append_collapses ((λ i : nat, sws R (N.of_nat i) (Lr i)) <$> seq c0 cnt) (cl X c0 cnt) = Ok (fin <$> seq c0 cnt).
Proof.
  induction cnt as [|cnt IH]; intros c0 HX; [done|].
  unfold cl. cbn [seq]. rewrite !fmap_cons. cbn [append_collapses]. fold (cl X (S c0) cnt). rewrite IH by (intros; apply HX; lia).
  cbn [bind]. do 2 f_equal. unfold fin, colpair, col. rewrite HX by lia. destruct (colfrom (Lr c0)) as [f|].
  - cbn [m_from m_to mk_collapse m_collapse]. rewrite andb_true_r.
    destruct (N.eqb_spec f (2 * Y (S c0))) as [->|Hf].
    + rewrite N.eqb_refl. cbn [negb fmap list_fmap]. by rewrite app_nil_r.
    + destruct (N.eqb_spec (enc R (N.of_nat c0) f) (enc R (N.of_nat c0) (2 * Y (S c0)))) as [E%enc_inj1|_]; [done|]. done.
  - cbn [m_from m_to mk_swap m_collapse]. cbn [N.eqb negb andb fmap list_fmap]. by rewrite app_nil_r.
Qed.
Lemma Convert_ok :
  ConvertCollapses n ((λ i : nat, sws R (N.of_nat i) (Lr i)) <$> seq 0 h) (cl dest 0 h) = Ok (fin <$> seq 0 h).
Proof.
  unfold ConvertCollapses. destruct h as [|h'] eqn:Eh; [done|]. rewrite <- Eh in *.
  assert (Hne : exists x l, cl dest 0 h = x :: l) by (rewrite Eh; cbn; by do 2 eexists).
  destruct Hne as (x & l & Ecl). rewrite Ecl, <- Ecl.
  replace (length (cl dest 0 h) - 1)%nat with h' by (unfold cl; rewrite fmap_length, seq_length; lia).
  destruct (convert_rows_ok h' ltac:(lia) dest) as (X' & E & HX & _).
  { intros c Hc. rewrite <- Eh, Y_end. pose proof (dest_div c (N.of_nat (h' - c))) as Hd.
    replace (N.of_nat c + 1 + N.of_nat (h' - c)) with (N.of_nat h) in Hd by lia. rewrite <- Hd.
    rewrite N.mul_comm. apply N.div_mod. pose proof (pow_pos (N.of_nat (h' - c) + 1)). lia. }
  rewrite E. cbn [bind]. apply append_ok. intros c Hc. apply HX. lia.
Qed.
End Trans.

Lemma enc_0 R i : enc R 0 i = i.
Proof. unfold enc. done. Qed.
Lemma dead_size L : size (dead 0 L) + alive L = size L.
Proof. unfold alive, size. pose proof (dead_count L 0). unfold omap in *. lia. Qed.

Lemma Transform_ok n L0 : n <= 2 ^ 62 -> size L0 = n -> dead 0 L0 <> [] ->
  exists h, (h <= N.to_nat (NumRows n))%nat /\ (forall i, (i < h)%nat -> dead 0 (rowat L0 i) <> []) /\
    (h = N.to_nat (NumRows n) \/ dead 0 (rowat L0 h) = []) /\
    Transform n (dead 0 L0) = Ok (fin n L0 <$> seq 0 h).
Proof.
  intros Hn HL Hd. assert (Ha : alive L0 < n).
  { pose proof (dead_size L0) as Hs. destruct (dead 0 L0); [done|]. unfold size in Hs at 1. cbn [length] in Hs. lia. }
  destruct (transform_rows_ok n Hn L0 HL (N.to_nat (NumRows n)) 0 ltac:(lia)) as (h & Hh & Hdd & He & Ht).
  exists h. split; [lia|]. split; [intros i Hi; apply Hdd; lia|]. split; [done|].
  unfold Transform. replace (sub64 n (size (dead 0 L0))) with (alive L0).
  2:{ pose proof (dead_size L0). assert (2 ^ 62 < two64) by done. rewrite sub64_small; lia. }
  change (N.of_nat 0) with 0 in Ht. change (rowat L0 0) with L0 in Ht.
  replace (enc (NumRows n) 0 <$> dead 0 L0) with (dead 0 L0) in Ht.
  2:{ symmetry. apply list_fmap_id. }
  rewrite Ht. cbn [bind fst snd]. rewrite Nat.sub_0_r. apply Convert_ok; try done; [lia|]. intros i Hi. apply Hdd. lia.
Qed.
