(** * PathFacts: roots and paths (proofs) *)
From Verif Require Import Base StateModel PosSpec PosFacts.
From Coq Require Import ZifyBool ZifyNat ZifyN.
Ltac Zify.zify_post_hook ::= Z.div_mod_to_equations.

Lemma testbit_mod n k : N.testbit n k = (n / 2 ^ k mod 2 =? 1).
Proof.
  rewrite N.testbit_odd, N.shiftr_div_pow2. rewrite <- N.negb_even, even_mod.
  generalize (n / 2 ^ k). intros q. lia.
Qed.
Lemma div_pow_S n k : n / 2 ^ (k + 1) = n / 2 ^ k / 2.
Proof. rewrite pow_S, N.mul_comm. rewrite N.div_div; [done|pose proof (pow_pos k); lia|lia]. Qed.

(** Rows with a root, from [k] downwards. *)
Fixpoint root_rows (k : nat) (n : N) : list N :=
  (if N.testbit n (N.of_nat k) then [N.of_nat k] else []) ++
  match k with O => [] | S k' => root_rows k' n end.
Definition root_at (n r : N) : N * N := (r, 2 * (n / 2 ^ (r + 1))).

Lemma root_rows_elem k n r : r ∈ root_rows k n <-> r <= N.of_nat k /\ N.testbit n r = true.
Proof.
  assert (Hone : forall x, r ∈ (if N.testbit n x then [x] else []) <-> r = x /\ N.testbit n r = true).
  { intros x. destruct (N.testbit n x) eqn:E.
    - rewrite elem_of_list_singleton. split; [by intros ->|by intros [-> _]].
    - rewrite elem_of_nil. split; [done|]. intros [-> ?]. congruence. }
  induction k as [|k IH]; cbn [root_rows]; rewrite elem_of_app, Hone.
  - rewrite elem_of_nil. split; [|intros [? ?]; left; split; [lia|done]].
    intros [[-> ?]|[]]. split; [lia|done].
  - rewrite IH. split.
    + intros [[-> ?]|[? ?]]; (split; [lia|done]).
    + intros [? ?]. destruct (decide (r = N.of_nat (S k))); [by left|right; split; [lia|done]].
Qed.

Lemma root_positions_from_ok n m k : n <= 2 ^ 62 -> m < 2 ^ (NumRows n + 1) -> N.of_nat k <= NumRows n ->
  root_positions_from k m (NumRows n) =
  Ok ((λ r, enc (NumRows n) r (2 * (m / 2 ^ (r + 1)))) <$> root_rows k m).
Proof.
  intros Hn Hm. pose proof (R62 n Hn). induction k as [|k IH]; intros Hk; cbn [root_positions_from root_rows].
  - rewrite HasRoot_ok by lia. cbn [bind]. destruct (N.testbit m (N.of_nat 0)); [|done].
    rewrite root_position_ok by (done || lia). done.
  - rewrite HasRoot_ok by lia. rewrite IH by lia. cbn [bind]. destruct (N.testbit m (N.of_nat (S k))); [|done].
    rewrite root_position_ok by (done || lia). done.
Qed.

Lemma RootPositions_ok n : n <= 2 ^ 62 ->
  RootPositions n = Ok ((λ t : N * N, enc (NumRows n) t.1 t.2) <$> (root_at n <$> root_rows (N.to_nat (NumRows n)) n)).
Proof.
  intros Hn. unfold RootPositions, RootPositionsFor. pose proof (R62 n Hn).
  destruct (N.ltb_spec (NumRows n) 64); [|lia].
  pose proof (NumRows_bound n). pose proof (pow_pos (NumRows n)).
  rewrite root_positions_from_ok; [|done|rewrite pow_S; lia|lia].
  rewrite <- list_fmap_compose. done.
Qed.

Lemma RootPositionsFor_ok n m : n <= 2 ^ 62 -> m < 2 ^ (NumRows n + 1) ->
  RootPositionsFor n m = Ok ((λ t : N * N, enc (NumRows n) t.1 t.2) <$> (root_at m <$> root_rows (N.to_nat (NumRows n)) m)).
Proof.
  intros Hn Hm. unfold RootPositionsFor. pose proof (R62 n Hn).
  destruct (N.ltb_spec (NumRows n) 64); [|lia].
  rewrite root_positions_from_ok; [|done|done|lia].
  rewrite <- list_fmap_compose. done.
Qed.

Lemma tiles_cons s e n r ts : tiles s e (root_at n r :: ts) <->
  s = 2 * (n / 2 ^ (r + 1)) * 2 ^ r /\ tiles ((2 * (n / 2 ^ (r + 1)) + 1) * 2 ^ r) e ts.
Proof. done. Qed.

Lemma tiles_root_rows n k :
  tiles (n / 2 ^ (N.of_nat k + 1) * 2 ^ (N.of_nat k + 1)) n (root_at n <$> root_rows k n).
Proof.
  induction k as [|k IH]; cbn [root_rows].
  - rewrite testbit_mod. change (2 ^ (N.of_nat 0 + 1)) with 2. change (2 ^ N.of_nat 0) with 1.
    change (N.of_nat 0) with 0.
    destruct (N.eqb_spec (n / 1 mod 2) 1) as [E|E]; cbn [app fmap list_fmap].
    + apply tiles_cons. change (2 ^ (0 + 1)) with 2. change (2 ^ 0) with 1. cbn [tiles]. lia.
    + cbn [tiles]. lia.
  - rewrite testbit_mod. remember (N.of_nat (S k)) as K eqn:HK.
    replace (N.of_nat k + 1) with K in IH by lia.
    rewrite (div_pow_S n K), (pow_S K).
    destruct (N.eqb_spec (n / 2 ^ K mod 2) 1) as [E|E]; cbn [app fmap list_fmap].
    + apply tiles_cons. rewrite (div_pow_S n K). revert E IH. generalize (2 ^ K). intros P.
      generalize (n / P). intros q E IH.
      split; [lia|]. replace (2 * (q / 2) + 1) with q by lia. done.
    + revert E IH. generalize (2 ^ K). intros P.
      generalize (n / P). intros q E IH.
      replace (q / 2 * (2 * P)) with (2 * (q / 2) * P) by lia.
      assert (Hq : q = 2 * (q / 2)) by lia. rewrite <- Hq. done.
Qed.

Lemma sorted_root_rows n k : StronglySorted (fun a b => b.1 < a.1) (root_at n <$> root_rows k n).
Proof.
  induction k as [|k IH]; cbn [root_rows].
  - destruct (N.testbit n _); repeat constructor.
  - destruct (N.testbit n _); [|done]. simpl. constructor; [done|].
    apply Forall_fmap, Forall_forall. intros r Hr%root_rows_elem. simpl. lia.
Qed.

Lemma forest_root_rows n : is_forest n (root_at n <$> root_rows (N.to_nat (NumRows n)) n).
Proof.
  split; [|apply sorted_root_rows].
  pose proof (tiles_root_rows n (N.to_nat (NumRows n))) as Ht. rewrite N2Nat.id in Ht.
  pose proof (NumRows_bound n). pose proof (pow_pos (NumRows n)). 
  rewrite (N.div_small n) in Ht; [done|]. rewrite pow_S. lia.
Qed.

Lemma tiles_ge s e ts : tiles s e ts -> s <= e.
Proof.
  revert s. induction ts as [|[r i] ts IH]; intros s; simpl; [lia|].
  intros [-> Ht%IH]. pose proof (pow_pos r). nia.
Qed.

(** The decomposition is unique. *)
Lemma forest_unique_aux n ts k : tiles (n / 2 ^ (N.of_nat k + 1) * 2 ^ (N.of_nat k + 1)) n ts ->
  StronglySorted (fun a b => b.1 < a.1) ts -> Forall (fun t => t.1 <= N.of_nat k) ts ->
  ts = root_at n <$> root_rows k n.
Proof.
  revert ts. induction k as [|k IH]; intros ts Ht Hs Hf; cbn [root_rows].
  - change (2 ^ (N.of_nat 0 + 1)) with 2 in Ht. rewrite testbit_mod. change (2 ^ N.of_nat 0) with 1.
    destruct ts as [|[r i] ts].
    + simpl in Ht. destruct (N.eqb_spec (n / 1 mod 2) 1); [lia|done].
    + inversion_clear Hf. simpl in H. replace r with 0 in * by lia.
      destruct Ht as [H1 H2]. change (2 ^ 0) with 1 in *.
      destruct ts as [|[r' i'] ts].
      2: { inversion_clear Hs. inversion_clear H4. simpl in H5. lia. }
      simpl in H2. destruct (N.eqb_spec (n / 1 mod 2) 1); [|lia].
      cbn -[N.div N.mul]. unfold root_at. change (2 ^ (0 + 1)) with 2.
      assert (i = 2 * (n / 2)) as -> by lia. done.
  - rewrite testbit_mod. remember (N.of_nat (S k)) as K eqn:HK.
    replace (N.of_nat k + 1) with K in IH by lia.
    assert (Hroot : root_at n K = (K, 2 * (n / 2 ^ K / 2))) by (unfold root_at; by rewrite div_pow_S).
    rewrite (div_pow_S n K), (pow_S K) in Ht. pose proof (pow_pos K) as Hpos.
    assert (Hmod : n mod 2 ^ K < 2 ^ K) by (apply N.mod_lt; lia).
    assert (Hdm := N.div_mod n (2 ^ K) ltac:(lia)).
    remember (n / 2 ^ K) as q eqn:Hq. remember (n mod 2 ^ K) as m eqn:Hm. clear Hq Hm.
    destruct (N.eqb_spec (q mod 2) 1) as [E|E].
    + (* a root at row K: the first tile must be it *)
      assert (Hh : q = 2 * (q / 2) + 1) by lia. remember (q / 2) as h eqn:Hq. clear Hq E. subst q.
      destruct ts as [|[r i] ts]; cbn [tiles] in Ht; [nia|]. destruct Ht as [H1 H2].
      inversion_clear Hs as [|? ? Hs' Hlt]. inversion_clear Hf as [|? ? Hr Hf'].
      cbn [fst] in Hr. destruct (decide (r = K)) as [->|Hne].
      * assert (i = 2 * h) as -> by nia. cbn [app fmap list_fmap]. rewrite Hroot. f_equal.
        apply IH; [done|done|].
        eapply Forall_impl; [exact Hlt|]. intros [? ?]. cbn [fst]. lia.
      * exfalso.
        (* all tiles below K: total size < 2^K *)
        assert (Hsum : forall ts s, tiles s n ts -> StronglySorted (fun a b : N * N => b.1 < a.1) ts ->
                  forall b, Forall (fun t => t.1 < b) ts -> n - s < 2 ^ b).
        { clear. induction ts as [|[r i] ts IH]; intros s Ht Hs b Hb; cbn [tiles] in Ht.
          - pose proof (pow_pos b). lia.
          - destruct Ht as [-> Ht]. inversion_clear Hs. inversion_clear Hb. cbn [fst] in *.
            specialize (IH _ Ht H r). apply tiles_ge in Ht.
            assert (2 ^ (r + 1) <= 2 ^ b) by (apply pow_mono; lia). rewrite pow_S in *.
            assert (n - (i + 1) * 2 ^ r < 2 ^ r); [|nia]. apply IH. done. }
        assert (Hall : Forall (fun t : N * N => t.1 < K) ((r, i) :: ts)).
        { constructor; [cbn [fst]; lia|]. eapply Forall_impl; [exact Hlt|]. intros [? ?]. cbn [fst]. lia. }
        specialize (Hsum ((r, i) :: ts) (h * (2 * 2 ^ K)) ltac:(cbn [tiles]; done)
                      ltac:(constructor; done) K Hall). nia.
    + (* no root at row K *)
      assert (Hh : q = 2 * (q / 2)) by lia. remember (q / 2) as h eqn:Hq. clear Hq E. subst q.
      cbn [app]. apply IH; [|done|].
      * replace (2 * h * 2 ^ K) with (h * (2 * 2 ^ K)) by lia. done.
      * destruct ts as [|[r i] ts]; [constructor|].
        destruct Ht as [H1 H2]. apply tiles_ge in H2.
        inversion_clear Hs as [|? ? Hs' Hlt]. inversion_clear Hf as [|? ? Hr Hf'].
        cbn [fst] in Hr. assert (r <> K).
        { intros ->. assert (i = 2 * h) by nia. subst i. nia. }
        constructor; [cbn [fst]; lia|]. eapply Forall_impl; [exact Hlt|]. intros [? ?]. cbn [fst]. lia.
Qed.

Lemma forest_unique n ts : is_forest n ts -> ts = root_at n <$> root_rows (N.to_nat (NumRows n)) n.
Proof.
  intros [Ht Hs]. pose proof (NumRows_bound n) as Hb. pose proof (pow_pos (NumRows n)).
  apply forest_unique_aux; [|done|].
  - rewrite N2Nat.id. rewrite (N.div_small n); [done|]. rewrite pow_S. lia.
  - rewrite N2Nat.id.
    assert (Hall : forall s, tiles s n ts -> Forall (fun t : N * N => 2 ^ t.1 <= n) ts).
    { clear. induction ts as [|[r i] ts IH]; intros s Ht; [constructor|]. destruct Ht as [-> Ht].
      pose proof (tiles_ge _ _ _ Ht). constructor; [simpl; pose proof (pow_pos r); nia|]. by eapply IH. }
    eapply Forall_impl; [by eapply Hall|]. intros [r i]. simpl. intros.
    apply pow_inj_le. lia.
Qed.

(** Roots are the nodes of the decomposition. *)
Lemma is_root_iff n r i : is_root n r i <-> N.testbit n r = true /\ i = 2 * (n / 2 ^ (r + 1)).
Proof.
  unfold is_root, node. rewrite testbit_mod, div_pow_S, pow_S.
  pose proof (pow_pos r) as Hpos.
  assert (Hmod : n mod 2 ^ r < 2 ^ r) by (apply N.mod_lt; lia).
  assert (Hdm := N.div_mod n (2 ^ r) ltac:(lia)).
  remember (n / 2 ^ r) as q eqn:Hq. remember (n mod 2 ^ r) as m eqn:Hm. remember (2 ^ r) as P eqn:HP. clear Hq Hm HP.
  subst n. split.
  - intros [H1 H2]. assert (i < q) by nia.
    assert (q < (i / 2 + 1) * 2) by (remember (i / 2) as h; nia).
    assert (i = q - 1 /\ q mod 2 = 1) as [-> ?] by lia. split; [by apply N.eqb_eq|lia].
  - intros [H1%N.eqb_eq ->]. replace (2 * (q / 2) / 2) with (q / 2) by lia.
    assert (Hh : q = 2 * (q / 2) + 1) by lia. remember (q / 2) as h eqn:Hq. clear Hq H1. subst q. nia.
Qed.

Lemma testbit_le_rows n r : N.testbit n r = true -> r <= NumRows n.
Proof.
  intros Hb. apply pow_inj_le. pose proof (NumRows_bound n).
  assert (2 ^ r <= n); [|lia].
  rewrite testbit_mod in Hb. apply N.eqb_eq in Hb. pose proof (pow_pos r).
  assert (Hdm := N.div_mod n (2 ^ r) ltac:(lia)).
  remember (n / 2 ^ r) as q eqn:Hq. remember (n mod 2 ^ r) as m eqn:Hm. clear Hq Hm.
  assert (q <> 0) by (intros E; rewrite E in Hb; discriminate). nia.
Qed.

Lemma NumRoots_half n : NumRoots n = NumRoots (n / 2) + n mod 2.
Proof.
  destruct n as [|[p|p|]]; try done.
  - change (N.pos p~1 / 2) with (N.div2 (N.pos p~1)) || idtac.
    replace (N.pos p~1 / 2) with (N.pos p) by lia. replace (N.pos p~1 mod 2) with 1 by lia. simpl. lia.
  - replace (N.pos p~0 / 2) with (N.pos p) by lia. replace (N.pos p~0 mod 2) with 0 by lia. simpl. lia.
Qed.

Lemma root_rows_length n k :
  NumRoots n = NumRoots (n / 2 ^ (N.of_nat k + 1)) + N.of_nat (length (root_rows k n)).
Proof.
  induction k as [|k IH]; cbn [root_rows].
  - rewrite testbit_mod. change (2 ^ (N.of_nat 0 + 1)) with 2. change (2 ^ N.of_nat 0) with 1.
    rewrite NumRoots_half. rewrite N.div_1_r.
    destruct (N.eqb_spec (n mod 2) 1); cbn [length app]; lia.
  - rewrite IH. remember (N.of_nat (S k)) as K eqn:HK. replace (N.of_nat k + 1) with K by lia.
    rewrite testbit_mod, app_length, (NumRoots_half (n / 2 ^ K)), <- div_pow_S.
    generalize (n / 2 ^ K) (n / 2 ^ (K + 1)). intros q h.
    destruct (N.eqb_spec (q mod 2) 1); cbn [length app]; lia.
Qed.
Lemma NumRoots_ok n : NumRoots n = N.of_nat (length (root_rows (N.to_nat (NumRows n)) n)).
Proof.
  rewrite (root_rows_length n (N.to_nat (NumRows n))), N2Nat.id.
  pose proof (NumRows_bound n). pose proof (pow_pos (NumRows n)).
  rewrite (N.div_small n) by (rewrite pow_S; lia). simpl. lia.
Qed.
Lemma NumRoots_le n k : n < 2 ^ k -> NumRoots n <= k.
Proof.
  revert n. induction k as [|k IH] using N.peano_ind; intros n Hn.
  - change (2 ^ 0) with 1 in Hn. assert (n = 0) by lia. subst. done.
  - rewrite N.pow_succ_r' in Hn. rewrite NumRoots_half. specialize (IH (n / 2)). lia.
Qed.

(** ** Path *)
Lemma pow_nz k : 2 ^ k <> 0.
Proof. pose proof (pow_pos k). lia. Qed.
Lemma land_pow n t : N.land (2 ^ t) n = if N.testbit n t then 2 ^ t else 0.
Proof.
  apply N.bits_inj. intros k. rewrite N.land_spec, N.pow2_bits_eqb.
  destruct (N.eqb_spec t k) as [<-|Hne].
  - destruct (N.testbit n t); cbn [andb]; [by rewrite N.pow2_bits_true|by rewrite N.bits_0].
  - cbn [andb]. destruct (N.testbit n t); [by rewrite N.pow2_bits_false|by rewrite N.bits_0].
Qed.

Lemma path_step f n pos r t bigger : t <= 62 -> r <= 62 ->
  path_loop (S f) n pos r t bigger =
  let b := N.testbit n t in
  if (if b then 2 ^ t else 0) <=? (pos * 2 ^ r) mod 2 ^ (t + 1)
  then path_loop f n (if b then sub64 pos (2 ^ t) else pos) r (if t =? 0 then 255 else t - 1)
         (if b then (bigger + 1) mod 256 else bigger)
  else Ok (bigger, (t + 256 - r) mod 256, not64 pos).
Proof.
  intros Ht Hr. cbn [path_loop]. rewrite (shl64_ok pos r) by lia.
  rewrite (shl64_ok 2 t), (shl64_ok 1 t) by lia. cbn [bind].
  rewrite <- pow_S, N.mul_1_l. rewrite !(w64_small (2 ^ _)) by (apply pow_R_64; lia).
  pose proof (pow_pos (t + 1)). pose proof (pow_pos t).
  rewrite sub64_small; [|lia|apply pow_R_64; lia].
  rewrite land_mask, w64_mod, land_pow by lia. cbv zeta.
  destruct (N.testbit n t); [|done].
  destruct (N.eqb_spec (2 ^ t) 0); [lia|done].
Qed.

Section PathSec.
Context (n r i : N).
Context (Hn : n <= 2 ^ 62) (Hnode : node n r i).
Notation R := (NumRows n).

Lemma enc_leaf_mod t : t <= R -> (enc R r i * 2 ^ r) mod 2 ^ (t + 1) = (i * 2 ^ r) mod 2 ^ (t + 1).
Proof.
  intros Ht. pose proof (node_slot _ _ _ Hnode) as [Hr Hi].
  pose proof (enc_eq R r i ltac:(lia)) as He.
  pose proof (pow_split (R + 1) r ltac:(lia)) as Hs.
  pose proof (pow_split (R + 1) (t + 1) ltac:(lia)) as Hs'.
  assert (HX : enc R r i * 2 ^ r + 2 ^ (R + 1) = 2 ^ (R + 1) * 2 ^ r + i * 2 ^ r).
  { rewrite Hs at 1. rewrite <- !N.mul_add_distr_r. f_equal. done. }
  pose proof (pow_pos (t + 1)).
  rewrite <- (N.mod_add (enc R r i * 2 ^ r) (2 ^ (R + 1 - (t + 1)))) by lia.
  rewrite <- Hs', HX, Hs', N.add_comm.
  replace (2 ^ (R + 1 - (t + 1)) * 2 ^ (t + 1) * 2 ^ r) with (2 ^ (R + 1 - (t + 1)) * 2 ^ r * 2 ^ (t + 1)) by lia.
  apply N.mod_add. lia.
Qed.

Lemma mod_pow_le x y a b : a <= b -> x mod 2 ^ b = y mod 2 ^ b -> x mod 2 ^ a = y mod 2 ^ a.
Proof.
  intros Hab Hxy. apply N.bits_inj. intros k. destruct (N.lt_ge_cases k a).
  - rewrite !N.mod_pow2_bits_low by lia.
    apply (f_equal (fun z => N.testbit z k)) in Hxy. rewrite !N.mod_pow2_bits_low in Hxy by lia. done.
  - rewrite !N.mod_pow2_bits_high by lia. done.
Qed.

Lemma sub64_mod x t a : t <= 62 -> a <= t -> x < two64 -> sub64 x (2 ^ t) mod 2 ^ a = x mod 2 ^ a.
Proof.
  intros Ht Ha Hx. unfold sub64. rewrite w64_mod by lia.
  pose proof (pow_R_64 t ltac:(lia)). rewrite w64_small by done.
  pose proof (pow_split t a Ha) as Hs. pose proof (pow_pos a). pose proof (pow_pos (t - a)).
  assert (Hbig : two64 - 2 ^ t = (2 ^ (64 - a) - 2 ^ (t - a)) * 2 ^ a).
  { rewrite two64_pow, (pow_split 64 a), Hs by lia. rewrite N.mul_sub_distr_r. done. }
  replace (x + two64 - 2 ^ t) with (x + (two64 - 2 ^ t)) by lia.
  rewrite Hbig, N.mod_add by lia. done.
Qed.

Lemma not64_mod x k : k <= 64 -> not64 x mod 2 ^ k + x mod 2 ^ k = 2 ^ k - 1.
Proof.
  intros Hk. unfold not64. rewrite <- (w64_mod x k) by done. 
  assert (Hx : w64 x < two64) by (apply N.mod_lt; done).
  remember (w64 x) as y. clear Heqy x. rewrite two64_pow, (pow_split 64 k) in * by done.
  pose proof (pow_pos k). pose proof (pow_pos (64 - k)).
  assert (Hdm := N.div_mod y (2 ^ k) ltac:(lia)).
  assert (Hml := N.mod_lt y (2 ^ k) ltac:(lia)).
  remember (y / 2 ^ k) as q eqn:Hq. remember (y mod 2 ^ k) as m eqn:Hm. clear Hq Hm.
  remember (2 ^ k) as P. remember (2 ^ (64 - k)) as Q.
  assert (q < Q) by nia.
  assert (((Q * P - 1 - y) mod P) = P - 1 - m); [|lia].
  clear Hk. symmetry. apply N.mod_unique with (Q - 1 - q); nia.
Qed.

Lemma enc_mod_low k : k <= R + 1 - r -> enc R r i mod 2 ^ k = i mod 2 ^ k.
Proof.
  intros Hk. pose proof (node_slot _ _ _ Hnode) as [Hr Hi].
  pose proof (enc_eq R r i ltac:(lia)) as He. pose proof (pow_pos k).
  rewrite <- (N.mod_add (enc R r i) (2 ^ (R + 1 - r - k))) by lia.
  rewrite <- (pow_split (R + 1 - r) k), He by lia.
  rewrite N.add_comm, (pow_split (R + 1) k) by lia. apply N.mod_add. lia.
Qed.

Lemma path_dec T : T <= R -> (i * 2 ^ r) / 2 ^ (T + 1) = n / 2 ^ (T + 1) ->
  let x := (i * 2 ^ r) mod 2 ^ (T + 1) in
  if (if N.testbit n T then 2 ^ T else 0) <=? x
  then (i * 2 ^ r) / 2 ^ T = n / 2 ^ T
  else N.testbit n T = true /\ r <= T /\ i / 2 ^ (T - r) = 2 * (n / 2 ^ (T + 1)).
Proof.
  intros HT HL. cbv zeta. pose proof (pow_pos r) as Hr. pose proof (pow_pos T) as HP.
  assert (HLn : i * 2 ^ r < n) by (unfold node in Hnode; nia).
  assert (Hx := N.mod_lt (i * 2 ^ r) (2 ^ (T + 1)) ltac:(pose proof (pow_pos (T+1)); lia)).
  assert (HdL := N.div_mod (i * 2 ^ r) (2 ^ (T + 1)) ltac:(pose proof (pow_pos (T+1)); lia)).
  rewrite HL, div_pow_S in HdL. rewrite testbit_mod.
  assert (Hm := N.mod_lt n (2 ^ T) ltac:(lia)).
  assert (Hdn := N.div_mod n (2 ^ T) ltac:(lia)).
  rewrite pow_S in HdL, Hx |- *.
  remember ((i * 2 ^ r) mod (2 * 2 ^ T)) as x eqn:Hxx. clear Hxx.
  remember (n / 2 ^ T) as q eqn:Hq. remember (n mod 2 ^ T) as m eqn:Hmm. clear Hmm.
  assert (HdP : forall c y, i * 2 ^ r = c * 2 ^ T + y -> y < 2 ^ T -> i * 2 ^ r / 2 ^ T = c).
  { intros c y Hy1 Hy2. rewrite Hy1. rewrite N.div_add_l, N.div_small by lia. lia. }
  destruct (N.eqb_spec (q mod 2) 1) as [E|E].
  - assert (Hh : q = 2 * (q / 2) + 1) by lia. 
    destruct (N.leb_spec (2 ^ T) x) as [Hc|Hc].
    + apply (HdP q (x - 2 ^ T)); [|lia]. remember (q / 2) as h. remember (2 ^ T) as P.
      rewrite HdL, Hh. clear - Hc. replace ((2 * h + 1) * P) with (2 * P * h + P) by lia. lia.
    + assert (HrT : r <= T).
      { apply N.le_ngt. intros Hlt. pose proof (pow_split r (T + 1) ltac:(lia)) as Hs. rewrite pow_S in Hs.
        unfold node in Hnode. remember (2 ^ (r - (T + 1))) as Z eqn:Heqz.
        assert (0 < Z) by (subst Z; apply pow_pos).
        rewrite Hs in HdL, Hnode. remember (2 ^ T) as P. remember (q / 2) as h eqn:Heqh.
        assert (HiZ : i * Z = h).
        { replace (i * (Z * (2 * P))) with (2 * P * (i * Z)) in HdL by lia.
          pose proof (N.div_unique (2 * P * (i * Z)) (2 * P) h x Hx HdL) as E0.
          rewrite (N.mul_comm (2 * P) (i * Z)), N.div_mul in E0 by (clear - HP; lia). done. } clear Heqh Heqz Hq HdP. subst h.
        assert (Hfin : (i * Z + Z) * (2 * P) <= P * (2 * (i * Z) + 1) + m) by (rewrite <- Hh, <- Hdn; lia).
        assert (Hzp : 1 * P <= Z * P) by (apply N.mul_le_mono_r; lia).
        clear - Hfin Hzp Hm. lia. }
      split; [done|]. split; [done|].
      rewrite <- pow_S, (div_pow_S n T), <- Hq.
      assert (HiL : i * 2 ^ r / 2 ^ T = i / 2 ^ (T - r)).
      { rewrite (pow_split T r HrT), (N.mul_comm (2 ^ (T - r))), (N.mul_comm i).
        rewrite N.div_mul_cancel_l; [done| |lia]. pose proof (pow_pos (T - r)). lia. }
      rewrite <- HiL. apply (HdP _ x); [|lia]. lia.
  - assert (Hh : q = 2 * (q / 2)) by lia. cbn [N.leb]. destruct (N.leb_spec 0 x); [|lia].
    apply (HdP q x); [lia|]. remember (q / 2) as h. remember (2 ^ T) as P. rewrite Hh in Hdn.
    clear - HLn HdL Hdn Hm. lia.
Qed.

(** From here on division is not unfolded by [lia]; [dlia] does it on demand. *)
Ltac Zify.zify_post_hook ::= idtac.
(** [plia]: [lia] without the hypotheses about powers (their positivity facts
    multiply the cases). *)
Ltac nopow := repeat match goal with H : context [N.pow _ _] |- _ => clear H end.
Ltac plia := nopow; lia.
Ltac dlia := zify; Z.div_mod_to_equations; lia.

Lemma path_loop_ok t : forall fuel pos bigger, N.of_nat t <= R -> (t < fuel)%nat -> pos < two64 ->
  pos mod 2 ^ (N.of_nat t + 1) = enc R r i mod 2 ^ (N.of_nat t + 1) ->
  (i * 2 ^ r) / 2 ^ (N.of_nat t + 1) = n / 2 ^ (N.of_nat t + 1) ->
  bigger + N.of_nat t < 255 ->
  exists j tr bits, path_loop fuel n pos r (N.of_nat t) bigger =
      Ok (bigger + N.of_nat j, tr - r, bits) /\
    root_rows t n !! j = Some tr /\ r <= tr /\ i / 2 ^ (tr - r) = 2 * (n / 2 ^ (tr + 1)) /\
    bits mod 2 ^ (tr - r) + i mod 2 ^ (tr - r) = 2 ^ (tr - r) - 1.
Proof.
  pose proof (node_slot _ _ _ Hnode) as [Hr Hi]. pose proof (R62 n Hn) as HR.
  assert (Hstop : forall T pos, T <= R -> r <= T -> pos mod 2 ^ (T + 1) = enc R r i mod 2 ^ (T + 1) ->
    (T + 256 - r) mod 256 = T - r /\ not64 pos mod 2 ^ (T - r) + i mod 2 ^ (T - r) = 2 ^ (T - r) - 1).
  { intros T pos HT HrT Hp. split; [replace (T + 256 - r) with (T - r + 1 * 256) by plia; rewrite N.mod_add, N.mod_small by plia; done|].
    rewrite <- (enc_mod_low (T - r)) by plia.
    rewrite <- (mod_pow_le pos (enc R r i) (T - r) (T + 1)) by (done || plia).
    apply not64_mod. plia. }
  induction t as [|t IH]; intros fuel pos bigger Ht Hf Hpos Hp HLn Hb.
  all: (destruct fuel as [|fuel]; [plia|]); rewrite path_step by plia; cbv zeta.
  all: rewrite <- N.mul_mod_idemp_l by apply pow_nz.
  all: rewrite Hp, N.mul_mod_idemp_l by apply pow_nz.
  all: rewrite enc_leaf_mod by done.
  all: pose proof (path_dec _ Ht HLn) as Hdec; cbv zeta in Hdec.
  - destruct (_ <=? _); cbn [root_rows].
    + exfalso. change (2 ^ N.of_nat 0) with 1 in Hdec. rewrite !N.div_1_r in Hdec.
      unfold node in Hnode. pose proof (pow_pos r). clear - Hnode Hdec H. nia.
    + destruct Hdec as (Hbit & HrT & HiT). rewrite Hbit.
      destruct (Hstop (N.of_nat 0) pos Ht HrT Hp) as [-> Hbits].
      exists 0%nat, (N.of_nat 0), (not64 pos). rewrite N.add_0_r. done.
  - remember (N.of_nat (S t)) as K eqn:HK. destruct (_ <=? _); cbn [root_rows]; rewrite <- HK.
    + destruct (N.eqb_spec K 0); [plia|].
      replace (K - 1) with (N.of_nat t) by plia.
      assert (HK' : N.of_nat t + 1 = K) by plia.
      destruct (N.testbit n K) eqn:Hbit.
      * destruct (IH fuel (sub64 pos (2 ^ K)) ((bigger + 1) mod 256)) as (j & tr & bits & E1 & E2 & E3 & E4 & E5);
          [plia|plia|apply N.mod_lt; done| |by rewrite HK'|plia|].
        { rewrite HK', sub64_mod by (done || plia). apply (mod_pow_le _ _ K (K + 1)); [plia|done]. }
        exists (S j), tr, bits. rewrite E1. split_and!; try done. f_equal. f_equal. f_equal. plia.
      * destruct (IH fuel pos bigger) as (j & tr & bits & E1 & E2 & E3 & E4 & E5);
          [plia|plia|done| |by rewrite HK'|plia|].
        { rewrite HK'. apply (mod_pow_le _ _ K (K + 1)); [plia|done]. }
        exists j, tr, bits. done.
    + destruct Hdec as (Hbit & HrT & HiT). rewrite Hbit.
      destruct (Hstop K pos Ht HrT Hp) as [-> Hbits].
      exists 0%nat, K, (not64 pos). rewrite N.add_0_r. done.
Qed.

Lemma Path_ok : exists j tr bits, Path n (enc R r i) = Ok (N.of_nat j, tr - r, bits) /\
    root_rows (N.to_nat R) n !! j = Some tr /\ r <= tr /\ i / 2 ^ (tr - r) = 2 * (n / 2 ^ (tr + 1)) /\
    bits mod 2 ^ (tr - r) + i mod 2 ^ (tr - r) = 2 ^ (tr - r) - 1.
Proof.
  pose proof (node_slot _ _ _ Hnode) as Hs. pose proof (R62 n Hn) as HR.
  unfold Path. rewrite DetectRow_ok by done. cbn [bind].
  destruct (path_loop_ok (N.to_nat R) 66 (enc R r i) 0) as (j & tr & bits & E1 & E2); rewrite ?N2Nat.id in *; try plia.
  - by apply enc_lt64.
  - pose proof (NumRows_bound n). pose proof (pow_pos R). pose proof (pow_pos r).
    rewrite (N.div_small n) by (rewrite pow_S; clear - H H0; lia).
    apply N.div_small. unfold node in Hnode. rewrite pow_S. clear - Hnode H H0 H1. nia.
  - exists j, tr, bits. done.
Qed.
End PathSec.

Ltac Zify.zify_post_hook ::= Z.div_mod_to_equations.
(** ** The property lemmas for C19 and C20 *)
Lemma enc_surj R p : p < 2 ^ (R + 1) - 1 -> exists r i, slot R r i /\ p = enc R r i.
Proof.
  intros Hp.
  assert (Hk : forall k, N.of_nat k <= R + 1 -> p < enc R (N.of_nat k) 0 ->
            exists r i, slot R r i /\ p = enc R r i).
  { induction k as [|k IH]; intros Hk Hlt; [rewrite enc_0 in Hlt; lia|].
    destruct (N.lt_ge_cases p (enc R (N.of_nat k) 0)); [apply IH; lia|].
    replace (N.of_nat (S k)) with (N.of_nat k + 1) in Hlt by lia. rewrite enc_S in Hlt by lia.
    exists (N.of_nat k), (p - enc R (N.of_nat k) 0). rewrite (enc_shift R (N.of_nat k) (p - _)).
    unfold slot. repeat split; lia. }
  apply (Hk (N.to_nat (R + 1))); rewrite N2Nat.id; [lia|].
  pose proof (enc_eq R (R + 1) 0 ltac:(lia)). replace (R + 1 - (R + 1)) with 0 in * by lia.
  change (2 ^ 0) with 1 in *. lia.
Qed.

Lemma lxor_2 x : N.lxor x 2 = if N.even (x / 2) then x + 2 else x - 2.
Proof.
  replace (N.lxor x 2) with (2 * N.lxor (x / 2) 1 + x mod 2).
  - rewrite lxor_1. unfold sib. rewrite even_mod. destruct (N.eqb_spec ((x / 2) mod 2) 0); lia.
  - apply N.bits_inj. intros k. rewrite N.lxor_spec.
    assert (Hb2 : forall k, N.testbit 2 k = (k =? 1)).
    { intros j. change 2 with (2 ^ 1). rewrite N.pow2_bits_eqb. apply N.eqb_sym. }
    assert (Hb1 : forall k, N.testbit 1 k = (k =? 0)).
    { intros j. change 1 with (2 ^ 0). rewrite N.pow2_bits_eqb. apply N.eqb_sym. }
    destruct (decide (k = 0)) as [->|Hk].
    + rewrite Hb2. rewrite xorb_false_r, N.bit0_odd, N.bit0_odd.
      rewrite N.add_comm, N.odd_add_mul_2. rewrite <- !N.negb_even, !even_mod.
      by rewrite N.mod_mod by lia.
    + assert (Hs : forall y, N.testbit y k = N.testbit (y / 2) (k - 1)).
      { intros y. rewrite <- N.div2_div, N.div2_spec, N.shiftr_spec by lia. f_equal. lia. }
      rewrite (Hs (_ + _)), (Hs x), Hb2.
      replace ((2 * N.lxor (x / 2) 1 + x mod 2) / 2) with (N.lxor (x / 2) 1) by lia.
      rewrite N.lxor_spec, Hb1. f_equal. lia.
Qed.

Lemma Cousin_ok R r i : r < R -> Cousin (enc R r i) = enc R r (4 * (i / 4) + (i + 2) mod 4).
Proof.
  intros Hr. unfold Cousin. rewrite lxor_2.
  pose proof (enc_eq R r 0 ltac:(lia)) as He. rewrite (enc_shift R r i).
  rewrite (enc_shift R r (4 * _ + _)). rewrite (pow_split (R + 1 - r) 2), (pow_split (R + 1) 2) in He by lia.
  change (2 ^ 2) with 4 in He. rewrite even_mod.
  destruct (N.eqb_spec (((enc R r 0 + i) / 2) mod 2) 0); lia.
Qed.

Lemma C19_numbering_lem n R : n <= 2 ^ 62 -> is_height n R ->
  NumRows n = R /\ MaxNodes n = Ok (2 ^ (R + 1) - 1) /\
  (forall p, p < 2 ^ (R + 1) - 1 -> exists r i, slot R r i /\ p = enc R r i) /\
  (forall r i r' i', slot R r i -> slot R r' i' -> enc R r i = enc R r' i' -> r = r' /\ i = i').
Proof.
  intros Hn <-%NumRows_height. split_and!; [done|by apply MaxNodes_ok|apply enc_surj|intros *; apply enc_inj].
Qed.

Lemma C19_row_lem n R r i : n <= 2 ^ 62 -> is_height n R -> slot R r i ->
  DetectRow n (enc R r i) = Ok r /\ RowOffset n (enc R r i) = Ok (enc R r 0) /\
  RowOffsetRow n r = Ok (enc R r 0).
Proof.
  intros Hn <-%NumRows_height Hs. split_and!; [by apply DetectRow_ok|by apply RowOffset_ok|].
  apply RowOffsetRow_ok; [done|]. by destruct Hs.
Qed.

Lemma C19_parent_child_lem n R r i : n <= 2 ^ 62 -> is_height n R -> slot R (r + 1) i ->
  LeftChild n (enc R (r + 1) i) = Ok (enc R r (2 * i)) /\
  (forall b, b < 2 -> Child n (enc R (r + 1) i) b = Ok (enc R r (2 * i + b)) /\
                      Parent n (enc R r (2 * i + b)) = Ok (enc R (r + 1) i)).
Proof.
  intros Hn <-%NumRows_height Hs. split; [by apply LeftChild_ok|].
  intros b Hb. split; [by apply Child_ok|]. destruct Hs as [H1 H2].
  rewrite Parent_ok; [do 2 f_equal; lia|done|]. split; [lia|].
  replace (NumRows n - r) with (NumRows n - (r + 1) + 1) by lia. rewrite pow_S. lia.
Qed.

Lemma C19_parent_lem n R r i : n <= 2 ^ 62 -> is_height n R -> slot R r i -> r < R ->
  Parent n (enc R r i) = Ok (enc R (r + 1) (i / 2)).
Proof. intros Hn <-%NumRows_height Hs ?. by apply Parent_ok. Qed.

Lemma C19_ancestor_lem n R r i k : n <= 2 ^ 62 -> is_height n R -> slot R r i -> r + k <= R ->
  Ancestor n (enc R r i) k = Ok (enc R (r + k) (i / 2 ^ k)) /\
  LeftDescendant n (enc R (r + k) (i / 2 ^ k)) k = Ok (enc R r (i / 2 ^ k * 2 ^ k)).
Proof.
  intros Hn <-%NumRows_height Hs ?. split; [by apply Ancestor_ok|].
  apply LeftDescendant_ok; [done|]. destruct Hs as [H1 H2]. split; [done|].
  apply N.div_lt_upper_bound; [pose proof (pow_pos k); lia|]. rewrite <- N.pow_add_r.
  replace (k + (NumRows n - (r + k))) with (NumRows n - r) by lia. done.
Qed.

Fixpoint iter_res (k : nat) (f : N -> res N) (x : N) : res N :=
  match k with O => Ok x | S k' => let* y := f x in iter_res k' f y end.

Lemma C19_iterate_lem n R r i k : n <= 2 ^ 62 -> is_height n R -> slot R r i -> r + N.of_nat k <= R ->
  Ancestor n (enc R r i) (N.of_nat k) = iter_res k (Parent n) (enc R r i).
Proof.
  intros Hn <-%NumRows_height Hs Hk. rewrite Ancestor_ok by done.
  revert r i Hs Hk. induction k as [|k IH]; intros r i Hs Hk.
  - cbn [iter_res]. change (N.of_nat 0) with 0. change (2 ^ 0) with 1. by rewrite N.add_0_r, N.div_1_r.
  - cbn [iter_res]. rewrite Parent_ok by done. cbn [bind]. rewrite <- IH.
    + do 2 f_equal; [lia|]. rewrite Nat2N.inj_succ, N.pow_succ_r', N.div_div; [done|lia|].
      pose proof (pow_pos (N.of_nat k)). lia.
    + destruct Hs as [H1 H2]. split; [lia|].
      replace (NumRows n - r) with (NumRows n - (r + 1) + 1) in H2 by lia. rewrite pow_S in H2. lia.
    + lia.
Qed.
Lemma C19_iterate_left_lem n R r i k : n <= 2 ^ 62 -> is_height n R -> slot R (r + N.of_nat k) i ->
  LeftDescendant n (enc R (r + N.of_nat k) i) (N.of_nat k) = iter_res k (LeftChild n) (enc R (r + N.of_nat k) i).
Proof.
  intros Hn <-%NumRows_height Hs. rewrite LeftDescendant_ok by done.
  revert i Hs. induction k as [|k IH]; intros i Hs.
  - cbn [iter_res]. change (N.of_nat 0) with 0. change (2 ^ 0) with 1. by rewrite N.add_0_r, N.mul_1_r.
  - cbn [iter_res]. replace (r + N.of_nat (S k)) with (r + N.of_nat k + 1) in * by lia.
    rewrite LeftChild_ok by done. cbn [bind]. rewrite <- IH.
    + do 2 f_equal. rewrite Nat2N.inj_succ, N.pow_succ_r'. lia.
    + destruct Hs as [H1 H2]. split; [lia|].
      replace (NumRows n - (r + N.of_nat k)) with (NumRows n - (r + N.of_nat k + 1) + 1) by lia. rewrite pow_S. lia.
Qed.

Lemma C19_sibling_lem n R r i : is_height n R -> slot R r i ->
  Sibling (enc R r i) = enc R r (sib i) /\ RightSibling (enc R r i) = enc R r (2 * (i / 2) + 1) /\
  (r < R -> Cousin (enc R r i) = enc R r (4 * (i / 4) + (i + 2) mod 4)).
Proof.
  intros <-%NumRows_height [H1 H2]. split_and!; [by apply Sibling_ok| |by apply Cousin_ok].
  rewrite RightSibling_ok by done. f_equal. lia.
Qed.

Lemma C20_roots_lem n R ts : n <= 2 ^ 62 -> is_height n R -> is_forest n ts ->
  RootPositions n = Ok ((λ t, enc R t.1 t.2) <$> ts) /\ NumRoots n = N.of_nat (length ts) /\
  (forall r, r <= R -> exists b, HasRoot n r = Ok b /\ (b = true <-> exists i, (r, i) ∈ ts)) /\
  (forall r i, (r, i) ∈ ts -> RootPosition n r = Ok (enc R r i)) /\
  (forall r i, (r, i) ∈ ts <-> is_root n r i).
Proof.
  intros Hn <-%NumRows_height Hf. apply forest_unique in Hf as ->. pose proof (R62 n Hn).
  assert (Hel : forall r i, (r, i) ∈ root_at n <$> root_rows (N.to_nat (NumRows n)) n <-> is_root n r i).
  { intros r i. rewrite is_root_iff, elem_of_list_fmap. split.
    - intros (r' & Heq & [Hle Hb]%root_rows_elem). unfold root_at in Heq. by inversion Heq.
    - intros [Hb ->]. exists r. split; [done|]. apply root_rows_elem. rewrite N2Nat.id.
      split; [by apply testbit_le_rows|done]. }
  split_and!; [by apply RootPositions_ok| | | |done].
  - by rewrite fmap_length, NumRoots_ok.
  - intros r Hr. rewrite HasRoot_ok by lia. eexists. split; [done|]. split.
    + intros Hb. exists (2 * (n / 2 ^ (r + 1))). rewrite Hel, is_root_iff. done.
    + intros [i Hi]. rewrite Hel, is_root_iff in Hi. by destruct Hi.
  - intros r i Hi. rewrite Hel, is_root_iff in Hi. destruct Hi as [Hb ->].
    rewrite RootPosition_ok; [done|done|by apply testbit_le_rows].
Qed.
Lemma C20_forest_exists_lem n : exists ts, is_forest n ts /\ forall ts', is_forest n ts' -> ts' = ts.
Proof. eexists. split; [apply forest_root_rows|apply forest_unique]. Qed.

Lemma C20_path_lem n R ts r i : n <= 2 ^ 62 -> is_height n R -> is_forest n ts -> node n r i ->
  exists j tr k bits, Path n (enc R r i) = Ok (N.of_nat j, tr - r, bits) /\
    RootIndex n (enc R r i) = Ok (N.of_nat j) /\ r <= tr /\
    ts !! j = Some (tr, k) /\ i / 2 ^ (tr - r) = k /\
    (forall m, m < tr - r -> N.testbit bits m = negb (N.testbit i m)).
Proof.
  intros Hn <-%NumRows_height Hf Hnd. apply forest_unique in Hf as ->.
  destruct (Path_ok n r i Hn Hnd) as (j & tr & bits & E1 & E2 & E3 & E4 & E5).
  exists j, tr, (2 * (n / 2 ^ (tr + 1))), bits. split_and!; try done.
  - unfold RootIndex. by rewrite E1.
  - by rewrite list_lookup_fmap, E2.
  - intros m Hm.
    rewrite <- (N.mod_pow2_bits_low bits (tr - r)), <- (N.mod_pow2_bits_low i (tr - r)) by done.
    assert (Hlt := N.mod_lt i (2 ^ (tr - r)) ltac:(pose proof (pow_pos (tr - r)); lia)).
    remember (i mod 2 ^ (tr - r)) as x eqn:Hx. remember (bits mod 2 ^ (tr - r)) as y eqn:Hy. clear Hx Hy.
    assert (y = N.lnot x (tr - r)) as ->.
    { destruct (decide (x = 0)) as [->|]; [rewrite N.lnot_0_l, N.ones_equiv; lia|].
      rewrite N.lnot_sub_low; [rewrite N.ones_equiv; lia|]. apply N.log2_lt_pow2; lia. }
    by rewrite N.lnot_spec_low.
Qed.
