(** * RemoveFacts: the execution of a deletion on a RamForest (proofs) *)
From stdpp Require Import sorting.
From Verif Require Import Base StateModel ForestModel PosSpec PosFacts PathFacts MerkleSpec ForestFacts RowFacts TransformFacts.
From Coq Require Import ZifyBool ZifyNat ZifyN.
Ltac Zify.zify_post_hook ::= idtac.
Ltac dlia := zify; Z.div_mod_to_equations; lia.

(** ** Shapes *)
Definition wide (f : forest) (n : N) : Prop :=
  f_n f = n /\ forall r, n / 2 ^ N.of_nat r <= len f r /\ len f r < two64.
Definition same_shape (f f' : forest) : Prop :=
  f_n f' = f_n f /\ f_roots f' = f_roots f /\ size (f_data f') = size (f_data f) /\ forall r, len f' r = len f r.
Lemma same_refl f : same_shape f f.
Proof. done. Qed.
Lemma same_trans f g h : same_shape f g -> same_shape g h -> same_shape f h.
Proof. intros (H1 & H2 & H3 & H4) (K1 & K2 & K3 & K4). repeat split; try congruence. Qed.
Lemma same_cells f f' : cells_only f f' -> same_shape f f'.
Proof.
  intros Hc. split; [by apply cells_only_n|]. split; [by apply cells_only_roots|]. split; [by apply cells_only_rows|].
  intros r. by apply cells_only_len.
Qed.
Lemma wide_same f f' n : same_shape f f' -> wide f n -> wide f' n.
Proof. intros (H1 & H2 & H3 & H4) (K1 & K2). split; [congruence|]. intros r. rewrite H4. apply K2. Qed.

Lemma node_iff n r i : node n r i <-> i < n / 2 ^ r.
Proof.
  unfold node. pose proof (pow_pos r) as Hp. revert Hp. generalize (2 ^ r). intros P Hp. split; intros Hi.
  - assert (i + 1 <= n / P) by (apply N.div_le_lower_bound; lia). lia.
  - pose proof (N.mul_div_le n P). nia.
Qed.
Lemma wide_node f n r i : wide f n -> node n (N.of_nat r) i -> i < len f r.
Proof. intros [_ Hw] Hi%node_iff. specialize (Hw r). lia. Qed.
Lemma node_child n r i : node n (r + 1) i -> node n r (2 * i) /\ node n r (2 * i + 1).
Proof. rewrite !node_iff, div_pow_S. generalize (n / 2 ^ r). intros q Hq. split; dlia. Qed.
Lemma node_down n r d i x : node n (r + d) i -> x < 2 ^ d -> node n r (i * 2 ^ d + x).
Proof. unfold node. rewrite N.pow_add_r. pose proof (pow_pos r). pose proof (pow_pos d). nia. Qed.
Lemma node_row n r i : node n r i -> r <= NumRows n.
Proof. intros [Hr _]%node_slot. done. Qed.

(** ** Swaps of one row *)
Lemma swt_lift j a b r i : (r <= j)%nat -> swt j a b r i = lift (N.of_nat (j - r)) (sw a b) i.
Proof. intros Hr. unfold swt, lift. destruct (Nat.leb_spec r j); [done|lia]. Qed.
Lemma swt_invol j a b r i : swt j a b r (swt j a b r i) = i.
Proof.
  destruct (decide (r <= j)%nat) as [Hr|Hr].
  - rewrite !swt_lift by done. rewrite lift_lift. apply lift_id. intros y. apply sw_invol.
  - unfold swt. destruct (Nat.leb_spec r j); [lia|done].
Qed.
Definition actt (j : nat) (l : list (N * N)) (r : nat) (i : N) : N :=
  if (r <=? j)%nat then lift (N.of_nat (j - r)) (act l) i else i.

Lemma do_swap_one f n j a b : n <= 2 ^ 31 -> wide f n -> posmap_inv f n -> (j <= 30)%nat ->
  node n (N.of_nat j) a -> node n (N.of_nat j) b -> a <> b ->
  exists f1 f2, F_UpdatePositionMapForSubtreeSwap f (enc (NumRows n) (N.of_nat j) a) (enc (NumRows n) (N.of_nat j) b) = Ok f1 /\
    F_SwapSubTrees f1 (enc (NumRows n) (N.of_nat j) a) (enc (NumRows n) (N.of_nat j) b)
      = Ok (f2, enc (NumRows n) (N.of_nat j + 1) (b / 2)) /\
    same_shape f f2 /\ posmap_inv f2 n /\ forall r i, G f2 r (swt j a b r i) = G f r i.
Proof.
  intros Hn Hw Hp Hj Ha Hb Hab. pose proof Hw as [Hfn Hlen].
  assert (Hn62 : n <= 2 ^ 62) by (assert (2 ^ 31 <= 2 ^ 62) by done; lia).
  destruct (F_UpdatePositionMapForSubtreeSwap_ok f j a b) as (m & E1 & Hm); rewrite ?Hfn; try done.
  { specialize (Hlen 0%nat). change (2 ^ N.of_nat 0) with 1 in Hlen. rewrite N.div_1_r in Hlen. lia. }
  rewrite Hfn in E1.
  destruct (F_SwapSubTrees_ok (set_posmap f m) j a b) as (f2 & E2 & Hc & HG).
  { cbn [f_n set_posmap]. by rewrite Hfn. }
  { done. }
  { cbn [f_n set_posmap]. rewrite Hfn. by apply node_slot. }
  { cbn [f_n set_posmap]. rewrite Hfn. by apply node_slot. }
  { done. }
  { intros r' Hr. change (len (set_posmap f m) r') with (len f r'). destruct (Hlen r') as [Hl1 Hl2].
    assert (Hx : forall x, node n (N.of_nat j) x -> (x + 1) * 2 ^ N.of_nat (j - r') <= n / 2 ^ N.of_nat r').
    { intros x Hx. unfold node in Hx. apply N.div_le_lower_bound; [pose proof (pow_pos (N.of_nat r')); lia|].
      replace (N.of_nat j) with (N.of_nat r' + N.of_nat (j - r')) in Hx by lia. rewrite N.pow_add_r in Hx. lia. }
    pose proof (Hx a Ha). pose proof (Hx b Hb). lia. }
  cbn [f_n set_posmap] in E2. rewrite Hfn in E2.
  exists (set_posmap f m), f2. split; [done|]. split; [done|].
  assert (HG' : forall r i, G f2 r i = G f r (swt j a b r i)) by (intros r i; rewrite HG; done).
  split; [|split].
  - eapply same_trans; [|by apply same_cells]. done.
  - intros h p. rewrite (cells_only_posmap _ _ Hc). cbn [f_posmap set_posmap]. rewrite Hm, Hfn, HG'. done.
  - intros r i. rewrite HG', swt_invol. done.
Qed.

Lemma do_swaps_ok n j fl l : n <= 2 ^ 31 -> (j <= 30)%nat ->
  (forall s, s ∈ l -> node n (N.of_nat j) s.1 /\ node n (N.of_nat j) s.2 /\ s.1 <> s.2) ->
  forall f, wide f n -> posmap_inv f n ->
  exists f', F_do_swaps f ((λ s : N * N, mk_collapse (enc (NumRows n) (N.of_nat j) s.1) (enc (NumRows n) (N.of_nat j) s.2) fl) <$> l)
      = Ok (f', if fl then [] else (λ s : N * N, enc (NumRows n) (N.of_nat (S j)) (s.2 / 2)) <$> l) /\
    same_shape f f' /\ posmap_inv f' n /\ forall r i, G f' r (actt j l r i) = G f r i.
Proof.
  intros Hn Hj. induction l as [|s l IH]; intros Hl f Hw Hp.
  - exists f. split; [by destruct fl|]. split; [done|]. split; [done|]. intros r i. unfold actt.
    destruct (r <=? j)%nat; [by rewrite lift_id|done].
  - destruct (Hl s ltac:(left)) as (H1 & H2 & H3).
    destruct (do_swap_one f n j s.1 s.2) as (f1 & f2 & E1 & E2 & Hs & Hp2 & HG); try done.
    rewrite fmap_cons. cbn [F_do_swaps m_from m_to mk_collapse]. rewrite E1. cbn [bind]. rewrite E2. cbn [bind fst snd].
    destruct (IH ltac:(intros s' Hs'; apply Hl; by right) f2) as (f' & E & Hs' & Hp' & HG'); [by eapply wide_same|done|].
    rewrite E. cbn [bind fst snd m_collapse].
    exists f'. split.
    { destruct fl; [done|]. replace (N.of_nat j + 1) with (N.of_nat (S j)) by lia. done. }
    split; [by eapply same_trans|]. split; [done|]. intros r i. rewrite <- HG, <- HG'. f_equal.
    unfold actt. destruct (Nat.leb_spec r j) as [Hr|Hr].
    + rewrite swt_lift by done. by rewrite lift_lift.
    + unfold swt. destruct (Nat.leb_spec r j); [lia|done].
Qed.
Lemma do_swaps_app f l1 l2 : F_do_swaps f (l1 ++ l2) =
  let* r := F_do_swaps f l1 in let* q := F_do_swaps r.1 l2 in Ok (q.1, r.2 ++ q.2).
Proof.
  revert f. induction l1 as [|s l1 IH]; intros f; cbn [F_do_swaps app].
  - cbn [bind fst snd]. destruct (F_do_swaps f l2) as [[??]| | | |]; done.
  - destruct (F_UpdatePositionMapForSubtreeSwap f (m_from s) (m_to s)) as [f1| | | |]; try done. cbn [bind].
    destruct (F_SwapSubTrees f1 (m_from s) (m_to s)) as [fd| | | |]; try done. cbn [bind].
    rewrite IH. destruct (F_do_swaps fd.1 l1) as [r| | | |]; try done. cbn [bind].
    cbn [fst snd]. destruct (F_do_swaps r.1 l2) as [q| | | |]; try done. cbn [bind fst snd].
    destruct (m_collapse s); done.
Qed.

(** ** Rehashing *)
Section Rehash.
Context (H : hash -> hash -> hash).

Lemma F_ReHash_at f n r i : n <= 2 ^ 62 -> f_n f = n -> node n (N.of_nat (S r)) i -> i < len f (S r) -> 2 * i + 1 < len f r ->
  F_ReHash H f n (enc (NumRows n) (N.of_nat (S r)) i) =
    Ok (setcell f (S r) i (H (G f r (2 * i)) (G f r (2 * i + 1)))).
Proof.
  intros Hn Hfn Hi Hil Hcl. pose proof (node_slot _ _ _ Hi) as Hsl.
  assert (Hi' : node n (N.of_nat r + 1) i) by (by replace (N.of_nat r + 1) with (N.of_nat (S r)) by lia).
  destruct (node_child _ _ _ Hi') as [Hc0 Hc1].
  assert (Hr0 : F_Read f (enc (NumRows n) (N.of_nat r) (2 * i)) = Ok (G f r (2 * i))).
  { rewrite <- Hfn. apply F_Read_ok; rewrite ?Hfn; [done|by apply node_slot|lia]. }
  assert (Hr1 : F_Read f (enc (NumRows n) (N.of_nat r) (2 * i + 1)) = Ok (G f r (2 * i + 1))).
  { rewrite <- Hfn. apply F_Read_ok; rewrite ?Hfn; [done|by apply node_slot|lia]. }
  unfold F_ReHash.
  replace (N.of_nat (S r)) with (N.of_nat r + 1) in Hsl |- * by lia.
  rewrite !Child_ok by done. cbn [bind]. rewrite N.add_0_r, Hr0. cbn [bind]. rewrite Hr1. cbn [bind].
  rewrite DetectRow_ok, RowOffset_ok by done. cbn [bind].
  pose proof (len_row _ _ _ Hil) as Hrow. replace (N.of_nat r + 1) with (N.of_nat (S r)) in Hsl |- * by lia.
  rewrite vec_at_ok by done. cbn [bind]. rewrite Nat2N.id.
  rewrite enc_off by (done || by apply R62). rewrite vec_set_ok by done. cbn [bind].
  rewrite vec_set_ok by done. cbn [bind]. rewrite Nat2N.id. done.
Qed.
Lemma F_ReHash_ok f n r i : n <= 2 ^ 62 -> wide f n -> node n (N.of_nat (S r)) i ->
  F_ReHash H f n (enc (NumRows n) (N.of_nat (S r)) i) =
    Ok (setcell f (S r) i (H (G f r (2 * i)) (G f r (2 * i + 1)))).
Proof.
  intros Hn Hw Hi. apply F_ReHash_at; [done|by destruct Hw|done|by eapply wide_node|]. eapply wide_node; [done|].
  apply node_child. by replace (N.of_nat r + 1) with (N.of_nat (S r)) by lia.
Qed.
Lemma F_Parent_ok n r i : n <= 2 ^ 62 -> node n r i ->
  (node n (r + 1) (i / 2) -> F_Parent n (enc (NumRows n) r i) = Ok (Some (enc (NumRows n) (r + 1) (i / 2)))) /\
  (~ node n (r + 1) (i / 2) -> F_Parent n (enc (NumRows n) r i) = Ok None).
Proof.
  intros Hn Hi. pose proof (node_slot _ _ _ Hi) as Hsl. pose proof (R62 _ Hn) as HR. pose proof Hsl as [Hr _].
  unfold F_Parent. rewrite Parent_ok, DetectRow_ok by (done || lia). cbn [bind]. rewrite HasRoot_ok by lia. cbn [bind]. rewrite RootPosition_ok by (done || lia). cbn [bind].
  pose proof (is_root_iff n r i) as Hroot. unfold is_root in Hroot.
  destruct (N.testbit n r) eqn:Et; cbn [andb].
  - destruct (N.eqb_spec (enc (NumRows n) r (2 * (n / 2 ^ (r + 1)))) (enc (NumRows n) r i)) as [E%enc_inj1|E].
    + split; [|done]. intros Hp. assert (node n r i /\ ~ node n (r + 1) (i / 2)) as [_ Hx]; [by apply Hroot|done].
    + split; [done|]. intros Hp. destruct E. f_equal. symmetry. by apply Hroot.
  - split; [done|]. intros Hp. assert (false = true /\ i = 2 * (n / 2 ^ (r + 1))) as [? _]; [by apply Hroot|done].
Qed.

Lemma posmap_inv_ext f f' n : f_posmap f' = f_posmap f -> (forall i, i < n -> G f' 0 i = G f 0 i) -> posmap_inv f n -> posmap_inv f' n.
Proof.
  intros Ep Eg Hp h p. rewrite Ep, (Hp h p). split; intros [Hl HG]; (split; [done|]); [rewrite Eg|rewrite <- Eg]; done.
Qed.

Lemma rehash_dirt_ok n r D : n <= 2 ^ 62 -> (forall d, d ∈ D -> node n (N.of_nat (S r)) d) ->
  forall f A, wide f n ->
  exists f' A', F_rehash_dirt H f n (enc (NumRows n) (N.of_nat (S r)) <$> D) (enc (NumRows n) (N.of_nat (S (S r))) <$> A)
      = Ok (f', enc (NumRows n) (N.of_nat (S (S r))) <$> A') /\
    cells_only f f' /\
    (forall r' i, (r' <> S r \/ i ∉ D) -> G f' r' i = G f r' i) /\
    (forall i, i ∈ D -> G f' (S r) i = H (G f r (2 * i)) (G f r (2 * i + 1))) /\
    (forall x, x ∈ A -> x ∈ A') /\
    (forall x, x ∈ A' -> x ∈ A \/ node n (N.of_nat (S (S r))) x) /\
    (forall d, d ∈ D -> node n (N.of_nat (S (S r))) (d / 2) -> d / 2 ∈ A').
Proof.
  intros Hn. induction D as [|d D IH]; intros HD f A Hw.
  - exists f, A. split; [done|]. split; [apply cells_only_refl|]. split; [done|]. split; [by intros ? ?%elem_of_nil|].
    split; [done|]. split; [by left|]. by intros ? ?%elem_of_nil.
  - assert (Hd : node n (N.of_nat (S r)) d) by (apply HD; left).
    rewrite fmap_cons. cbn [F_rehash_dirt]. rewrite F_ReHash_ok by done. cbn [bind].
    remember (setcell f (S r) d (H (G f r (2 * d)) (G f r (2 * d + 1)))) as f1 eqn:Ef1.
    assert (Hc1 : cells_only f f1) by (rewrite Ef1; apply cells_only_setcell).
    assert (HG1 : forall r' i', G f1 r' i' = if decide (r' = S r /\ i' = d) then H (G f r (2 * d)) (G f r (2 * d + 1)) else G f r' i').
    { intros r' i'. rewrite Ef1. apply G_setcell. by eapply wide_node. }
    rewrite Parent_ok by (done || by apply node_slot). cbn [bind].
    destruct (F_Parent_ok n (N.of_nat (S r)) d Hn Hd) as [Hpar1 Hpar2].
    replace (N.of_nat (S r) + 1) with (N.of_nat (S (S r))) in * by lia.
    assert (Hacc : exists A1, (match last (enc (NumRows n) (N.of_nat (S (S r))) <$> A) with
         | Some b => if b =? enc (NumRows n) (N.of_nat (S (S r))) (d / 2) then Ok (enc (NumRows n) (N.of_nat (S (S r))) <$> A)
                     else let* p := F_Parent n (enc (NumRows n) (N.of_nat (S r)) d) in
                          Ok (match p with Some x => (enc (NumRows n) (N.of_nat (S (S r))) <$> A) ++ [x] | None => enc (NumRows n) (N.of_nat (S (S r))) <$> A end)
         | None => let* p := F_Parent n (enc (NumRows n) (N.of_nat (S r)) d) in
                   Ok (match p with Some x => (enc (NumRows n) (N.of_nat (S (S r))) <$> A) ++ [x] | None => enc (NumRows n) (N.of_nat (S (S r))) <$> A end)
         end) = Ok (enc (NumRows n) (N.of_nat (S (S r))) <$> A1) /\
         (forall x, x ∈ A -> x ∈ A1) /\ (forall x, x ∈ A1 -> x ∈ A \/ node n (N.of_nat (S (S r))) x) /\
         (node n (N.of_nat (S (S r))) (d / 2) -> d / 2 ∈ A1)).
    { assert (Hpush : exists A1, (let* p := F_Parent n (enc (NumRows n) (N.of_nat (S r)) d) in
                          Ok (match p with Some x => (enc (NumRows n) (N.of_nat (S (S r))) <$> A) ++ [x] | None => enc (NumRows n) (N.of_nat (S (S r))) <$> A end))
           = Ok (enc (NumRows n) (N.of_nat (S (S r))) <$> A1) /\
         (forall x, x ∈ A -> x ∈ A1) /\ (forall x, x ∈ A1 -> x ∈ A \/ node n (N.of_nat (S (S r))) x) /\
         (node n (N.of_nat (S (S r))) (d / 2) -> d / 2 ∈ A1)).
      { destruct (decide (d / 2 < n / 2 ^ N.of_nat (S (S r)))) as [Hx|Hx]; rewrite <- node_iff in Hx.
        - rewrite Hpar1 by done. cbn [bind]. exists (A ++ [d / 2]). rewrite fmap_app. split; [done|].
          split; [intros x Hx'; apply elem_of_app; by left|]. split; [|intros _; apply elem_of_app; right; by left].
          intros x [Hx'|Hx']%elem_of_app; [by left|]. apply elem_of_list_singleton in Hx' as ->. by right.
        - rewrite Hpar2 by done. cbn [bind]. exists A. split; [done|]. split; [done|]. split; [by left|done]. }
      destruct (last (enc (NumRows n) (N.of_nat (S (S r))) <$> A)) as [b|] eqn:El; [|exact Hpush].
      destruct (N.eqb_spec b (enc (NumRows n) (N.of_nat (S (S r))) (d / 2))) as [E|E]; [|exact Hpush].
      exists A. split; [done|]. split; [done|]. split; [by left|]. intros _.
      rewrite fmap_last in El. destruct (last A) as [x|] eqn:El2; [|done]. cbn in El. apply (inj Some) in El.
      rewrite E in El. apply enc_inj1 in El. rewrite <- El. by apply last_Some_elem_of. }
    destruct Hacc as (A1 & EA & HA1 & HA2 & HA3). rewrite EA. cbn [bind].
    destruct (IH ltac:(intros x Hx; apply HD; by right) f1 A1) as (f' & A' & E & Hc & HG & HGd & HA4 & HA5 & HA6).
    { eapply wide_same; [by apply same_cells|done]. }
    exists f', A'. split; [exact E|]. split; [by eapply cells_only_trans|].
    split; [|split; [|split; [|split]]].
    + intros r' i Hri. rewrite not_elem_of_cons in Hri. rewrite HG by tauto. rewrite HG1.
      destruct (decide (r' = S r /\ i = d)) as [[-> ->]|]; [tauto|done].
    + intros i Hi. destruct (decide (i ∈ D)) as [Hi'|Hi'].
      * rewrite HGd by done. rewrite !HG1. destruct (decide _) as [[? _]|_]; [lia|]. destruct (decide _) as [[? _]|_]; [lia|done].
      * rewrite HG by (by right). rewrite HG1. apply elem_of_cons in Hi as [->|]; [|done].
        destruct (decide _) as [_|Hno]; [done|]. by destruct Hno.
    + auto.
    + intros x [Hx|Hx]%HA5; [by apply HA2|by right].
    + intros x [->|Hx]%elem_of_cons Hnx; [by apply HA4, HA3|by apply HA6].
Qed.
End Rehash.

(** ** Hashes of subtrees *)
Section Nh.
Context (H : hash -> hash -> hash).
Lemma nh_ext l1 l2 r : forall i, (forall x, i * 2 ^ N.of_nat r <= x < (i + 1) * 2 ^ N.of_nat r -> l1 x = l2 x) ->
  nh H l1 r i = nh H l2 r i.
Proof.
  induction r as [|r IH]; intros i Hx; cbn [nh].
  - change (2 ^ N.of_nat 0) with 1 in Hx. apply Hx. lia.
  - rewrite pow_nat_S in Hx. f_equal; apply IH; intros x Hx'; apply Hx; lia.
Qed.
Lemma nh_shift l r k : forall i, nh H (fun x => l (k * 2 ^ N.of_nat r + x)) r i = nh H l r (k + i).
Proof.
  revert k. induction r as [|r IH]; intros k i; cbn [nh].
  - change (2 ^ N.of_nat 0) with 1. f_equal. lia.
  - rewrite pow_nat_S.
    assert (Hs : forall i, nh H (fun x => l (k * (2 * 2 ^ N.of_nat r) + x)) r i = nh H l r (2 * k + i)).
    { intros i'. rewrite <- IH. apply nh_ext. intros x _. f_equal. lia. }
    rewrite !Hs. f_equal; f_equal; lia.
Qed.
Lemma leaf_at_app1 a b x : x < size a -> leaf_at (a ++ b) x = leaf_at a x.
Proof. unfold leaf_at, size. intros Hx. apply lookup_total_app_l. lia. Qed.
Lemma leaf_at_app2 a b x : leaf_at (a ++ b) (size a + x) = leaf_at b x.
Proof. unfold leaf_at, size. rewrite lookup_total_app_r by lia. f_equal. lia. Qed.
Lemma nh_app1 a b r i : (i + 1) * 2 ^ N.of_nat r <= size a -> nh H (leaf_at (a ++ b)) r i = nh H (leaf_at a) r i.
Proof. intros Hi. apply nh_ext. intros x Hx. apply leaf_at_app1. lia. Qed.
Lemma nh_app2 a b r k i : size a = k * 2 ^ N.of_nat r -> nh H (leaf_at (a ++ b)) r (k + i) = nh H (leaf_at b) r i.
Proof. intros Ha. rewrite <- nh_shift. apply nh_ext. intros x _. rewrite <- Ha. apply leaf_at_app2. Qed.

Definition holds (g : nat -> N -> hash) (j : nat) (i : N) (c : chunk) : Prop :=
  size c = 2 ^ N.of_nat j /\ forall r x, (r <= j)%nat -> x < 2 ^ N.of_nat (j - r) ->
    g r (i * 2 ^ N.of_nat (j - r) + x) = nh H (leaf_at c) r x.

Lemma holds_app g j i a b : size a = 2 ^ N.of_nat j -> size b = 2 ^ N.of_nat j ->
  (forall r x, (r <= j)%nat -> x < 2 ^ N.of_nat (j - r) -> g r (2 * i * 2 ^ N.of_nat (j - r) + x) = nh H (leaf_at a) r x) ->
  (forall r x, (r <= j)%nat -> x < 2 ^ N.of_nat (j - r) -> g r ((2 * i + 1) * 2 ^ N.of_nat (j - r) + x) = nh H (leaf_at b) r x) ->
  g (S j) i = H (g j (2 * i)) (g j (2 * i + 1)) ->
  holds g (S j) i (a ++ b).
Proof.
  intros Ha Hb H1 H2 H3. split.
  { unfold size in *. rewrite app_length, pow_nat_S. lia. }
  intros r x Hr Hx. destruct (decide (r = S j)) as [->|Hne].
  - rewrite Nat.sub_diag in Hx |- *. change (2 ^ N.of_nat 0) with 1 in *. assert (x = 0) as -> by lia.
    replace (i * 1 + 0) with i by lia. rewrite H3. cbn [nh].
    specialize (H1 j 0 ltac:(lia)). specialize (H2 j 0 ltac:(lia)). rewrite Nat.sub_diag in H1, H2.
    change (2 ^ N.of_nat 0) with 1 in *. rewrite !N.mul_1_r, !N.add_0_r in *. rewrite H1, H2 by lia.
    f_equal; symmetry.
    + change (2 * 0) with 0. apply nh_app1. lia.
    + change (2 * 0 + 1) with (1 + 0). apply nh_app2. lia.
  - replace (S j - r)%nat with (S (j - r)) in * by lia. rewrite pow_nat_S in *.
    assert (HP : 2 ^ N.of_nat j = 2 ^ N.of_nat (j - r) * 2 ^ N.of_nat r).
    { rewrite <- N.pow_add_r. f_equal. lia. }
    destruct (N.lt_ge_cases x (2 ^ N.of_nat (j - r))) as [Hlt|Hge].
    + replace (i * (2 * 2 ^ N.of_nat (j - r)) + x) with (2 * i * 2 ^ N.of_nat (j - r) + x) by lia.
      rewrite H1 by (done || lia). symmetry. apply nh_app1. rewrite Ha, HP. apply N.mul_le_mono_r. lia.
    + replace x with (2 ^ N.of_nat (j - r) + (x - 2 ^ N.of_nat (j - r))) by lia.
      remember (x - 2 ^ N.of_nat (j - r)) as x' eqn:Ex.
      replace (i * (2 * 2 ^ N.of_nat (j - r)) + (2 ^ N.of_nat (j - r) + x')) with ((2 * i + 1) * 2 ^ N.of_nat (j - r) + x') by lia.
      rewrite H2 by lia. symmetry. apply nh_app2. by rewrite Ha, HP.
Qed.
End Nh.

(** ** Sizes of the result *)
Definition full_chunks (j : nat) (L : list cell) : Prop := forall i c, L !! i = Some (Some c) -> size c = 2 ^ N.of_nat j.
Lemma cont_lookup L i c : cont L i = Some c -> L !! N.to_nat i = Some (Some c).
Proof. unfold cont. destruct (L !! N.to_nat i) as [x|]; [|done]. cbn. by intros ->. Qed.
Lemma full_next j L : full_chunks j L -> full_chunks (S j) (next_row L).
Proof.
  intros Hf i c Hi. destruct (row_alive L i c (N.of_nat i + 1) Hi) as (a & b & i0 & i1 & -> & Ha & Hb & _); [lia|].
  apply cont_lookup, Hf in Ha. apply cont_lookup, Hf in Hb. rewrite pow_nat_S. unfold size in *. rewrite app_length. lia.
Qed.
Lemma remove_rows_size m : forall j L, size L < 2 ^ N.of_nat m -> full_chunks j L ->
  size (remove_rows m L) = alive L * 2 ^ N.of_nat j.
Proof.
  induction m as [|m IH]; intros j L Hs Hf.
  - change (2 ^ N.of_nat 0) with 1 in Hs. destruct L; [done|]. unfold size in Hs. cbn [length] in Hs. lia.
  - cbn [remove_rows]. assert (Hn : size (remove_rows m (next_row L)) = alive (next_row L) * 2 ^ N.of_nat (S j)).
    { apply IH; [|by apply full_next]. rewrite next_row_size. rewrite pow_nat_S in Hs. revert Hs.
      generalize (2 ^ N.of_nat m). intros P Hs. dlia. }
    unfold size in *. rewrite app_length, Nat2N.inj_add, Hn, pow_nat_S.
    rewrite (alive_next L). pose proof (row_root_moved L 0) as Hr. unfold bit. fold (rps L).
    destruct (new_root (row_root L) (rps L)) as [c|].
    + destruct Hr as (f & -> & Hc & _). change (default [] (Some c)) with c. apply cont_lookup, Hf in Hc. unfold size in Hc. lia.
    + rewrite Hr. change (default [] (@None chunk)) with (@nil N). cbn [length]. lia.
Qed.

(** ** The swaps join nodes *)
Lemma rows_bound62 n L0 j : size L0 = n -> (j <= N.to_nat (NumRows n))%nat -> size (rowat L0 j) <= 2 ^ N.of_nat (N.to_nat (NumRows n) - j).
Proof.
  intros HL0 Hj. rewrite rowat_size, HL0. pose proof (pow_pos (N.of_nat j)). apply N.div_le_upper_bound; [lia|]. rewrite <- N.pow_add_r.
  replace (N.of_nat j + N.of_nat (N.to_nat (NumRows n) - j)) with (NumRows n) by lia. apply NumRows_bound.
Qed.
Section Rows62.
Context (n : N) (n62 : n <= 2 ^ 62) (L0 : list cell) (HL0 : size L0 = n).
Context (h : nat) (HhR : (h <= N.to_nat (NumRows n))%nat) (Hdead : forall i, (i < h)%nat -> dead 0 (rowat L0 i) <> []).
Notation R := (NumRows n).
Notation Lr := (rowat L0).
Notation Yr := (Y n L0).
Lemma colpair_node62 j s : (j < h)%nat -> s ∈ colpair n L0 j -> node n (N.of_nat j) s.1 /\ node n (N.of_nat j) s.2 /\ s.1 <> s.2.
Proof.
  intros Hj Hs. unfold colpair in Hs. destruct (colfrom (Lr j)) as [f|] eqn:Ef; [|by apply elem_of_nil in Hs].
  destruct (N.eqb_spec f (2 * Yr (S j))) as [E|E]; [by apply elem_of_nil in Hs|].
  apply elem_of_list_singleton in Hs as ->. cbn [fst snd]. split; [|split; [|done]].
  - apply (row_node n n62 L0 HL0). by apply colfrom_range.
  - assert (Hd : dead 0 (Lr (S j)) <> []).
    { intros Ed. destruct (tail_end (Lr j) (Hdead j Hj) Ed _ eq_refl) as (Hc & _). congruence. }
    assert (Hy : Lr (S j) !! N.to_nat (Yr (S j)) = Some None).
    { apply tailpos_dead; [|done]. apply rows_bound62; [done|lia]. }
    apply lookup_lt_Some in Hy. assert (Hy' : node n (N.of_nat (S j)) (Yr (S j))).
    { apply (row_node n n62 L0 HL0). unfold size. lia. }
    replace (N.of_nat (S j)) with (N.of_nat j + 1) in Hy' by lia. by destruct (node_child _ _ _ Hy').
Qed.
Lemma rsws_node62 j s : s ∈ rsws (Lr j) -> node n (N.of_nat j) s.1 /\ node n (N.of_nat j) s.2 /\ s.1 <> s.2.
Proof.
  destruct s as [a b]. intros Hs. destruct (ends_in _ _ _ Hs) as [Ha Hb]. cbn [fst snd].
  split; [|split].
  - apply (row_node n n62 L0 HL0). by apply ends_range.
  - apply (row_node n n62 L0 HL0). by apply ends_range.
  - intros ->. by apply (ends_pair_half _ _ _ (rsws_halves (Lr j)) Hs).
Qed.
End Rows62.

(** ** What the rows do to the hashes *)
Section RowsPure.
Context (H : hash -> hash -> hash).
Context (n : N) (n62 : n <= 2 ^ 62) (L0 : list cell) (HL0 : size L0 = n) (Hnn : alive L0 < n).
Notation R := (NumRows n).
Notation Lr := (rowat L0).
Notation Yr := (Y n L0).

Lemma lift_block d g i x : x < 2 ^ d -> lift d g (i * 2 ^ d + x) = g i * 2 ^ d + x.
Proof.
  intros Hx. unfold lift. rewrite N.div_add_l by lia. rewrite N.div_small, N.add_0_r by done. f_equal.
  rewrite N.add_comm, N.mod_add by lia. by apply N.mod_small.
Qed.

Definition newdirt (j : nat) (D : list N) : list N := D ++ ((λ s : N * N, s.2 / 2) <$> rsws (Lr j)).
Lemma newdirt_rsing j a b : (a, b) ∈ rsws (Lr j) -> b ∈ rsing (Lr j).
Proof.
  unfold rsws. generalize (rsing (Lr j)) (ri (Lr j)). clear. intros ts root. induction ts as [|t|t t' ts IH] using pair_up_ind.
  - by intros ?%elem_of_nil.
  - cbn [swl]. destruct root; [|by intros ?%elem_of_nil]. rewrite elem_of_list_singleton. intros [= -> ->]. by left.
  - change (swl false (t :: t' :: ts) root) with ((sib t', t) :: swl false ts root).
    intros [[= -> ->]|Hx]%elem_of_cons; [by left|]. do 2 right. by apply IH.
Qed.
Lemma newdirt_node j D d : (forall d, d ∈ D -> node n (N.of_nat (S j)) d) -> d ∈ newdirt j D -> node n (N.of_nat (S j)) d.
Proof.
  intros HD Hd. apply elem_of_app in Hd as [Hd|Hd]; [by apply HD|].
  apply elem_of_list_fmap in Hd as ([a b] & -> & Hab). cbn [snd].
  apply (row_node n n62 L0 HL0). rewrite rowat_S, next_row_size, <- size_rps.
  apply newdirt_rsing in Hab. by apply rsing_half in Hab.
Qed.

(** [rowsrel k j g D g']: the rows [j .. j+k-1] turn the hashes [g], with dirty
    nodes [D] on row [j+1], into [g']. *)
Fixpoint rowsrel (k j : nat) (g : nat -> N -> hash) (D : list N) (g' : nat -> N -> hash) : Prop :=
  match k with
  | O => forall r i, g' r i = g r i
  | S k' => exists g1 g2 D2,
      (forall r i, (r <= j)%nat -> g1 r (lift (N.of_nat (j - r)) (sigma (Lr j) (Yr (S j))) i) = g r i) /\
      (forall r i, (j < r)%nat -> g1 r i = g r i) /\
      (forall r i, (r <> S j \/ i ∉ newdirt j D) -> g2 r i = g1 r i) /\
      (forall i, i ∈ newdirt j D -> g2 (S j) i = H (g1 j (2 * i)) (g1 j (2 * i + 1))) /\
      (forall d, d ∈ D2 -> node n (N.of_nat (S (S j))) d) /\
      (forall d, d ∈ newdirt j D -> node n (N.of_nat (S (S j))) (d / 2) -> d / 2 ∈ D2) /\
      rowsrel k' (S j) g2 D2 g'
  end.

Lemma rows_pure k : forall j g D g', (j + k)%nat = N.to_nat R ->
  (forall d, d ∈ D -> node n (N.of_nat (S j)) d) ->
  (forall i c, Lr j !! i = Some (Some c) -> holds H g j (N.of_nat i) c) ->
  (forall r i, (j <= r)%nat -> node n (N.of_nat (S r)) i ->
     g (S r) i = H (g r (2 * i)) (g r (2 * i + 1)) \/ exists d, d ∈ D /\ d / 2 ^ N.of_nat (r - j) = i) ->
  rowsrel k j g D g' ->
    (forall m, size (Lr j) < 2 ^ N.of_nat m -> forall r i, (i + 1) * 2 ^ N.of_nat r <= alive (Lr j) * 2 ^ N.of_nat j ->
       g' r i = nh H (leaf_at (remove_rows m (Lr j))) r i) /\
    (forall r x, (r <= j)%nat -> x < 2 ^ N.of_nat (j - r) ->
       g' r (alive (Lr j) * 2 ^ N.of_nat (j - r) + x) = g r (Yr j * 2 ^ N.of_nat (j - r) + x)).
Proof.
  induction k as [|k IH]; intros j g D g3 Hj HD Hhold Hcons Hrel; cbn [rowsrel] in Hrel.
  - assert (Ha : alive (Lr j) = 0).
    { rewrite rowat_alive. apply N.div_small. replace (N.of_nat j) with R by lia. pose proof (NumRows_bound n). lia. }
    split.
    + intros m Hm r i Hi. rewrite Ha in Hi. pose proof (pow_pos (N.of_nat r)). nia.
    + intros r x Hr Hx. unfold Y. replace (N.to_nat R - j)%nat with 0%nat by lia. apply Hrel.
  - destruct Hrel as (g1 & g2 & D2 & HG1 & HG1' & HG2 & HG2d & HD2 & HD2' & Hrel).
    remember (newdirt j D) as D1 eqn:ED1.
    assert (HD1 : forall d, d ∈ D1 -> node n (N.of_nat (S j)) d).
    { intros d Hd. rewrite ED1 in Hd. by eapply newdirt_node. }
    unfold newdirt in ED1.
    assert (Hlow : forall r i, (r <= j)%nat -> g2 r i = g1 r i) by (intros r i Hr; apply HG2; left; lia).
    assert (Hmove : forall r i x, (r <= j)%nat -> x < 2 ^ N.of_nat (j - r) ->
      g2 r (sigma (Lr j) (Yr (S j)) i * 2 ^ N.of_nat (j - r) + x) = g r (i * 2 ^ N.of_nat (j - r) + x)).
    { intros r i x Hr Hx. rewrite Hlow by done. rewrite <- lift_block by done. by apply HG1. }
    assert (Hmove0 : forall i, g2 j (sigma (Lr j) (Yr (S j)) i) = g j i).
    { intros i. specialize (Hmove j i 0). rewrite Nat.sub_diag in Hmove. change (2 ^ N.of_nat 0) with 1 in Hmove.
      rewrite !N.mul_1_r, !N.add_0_r in Hmove. apply Hmove; lia. }
    assert (Hrow : forall i, node n (N.of_nat (S j)) i -> i ∈ D1 -> g2 (S j) i = H (g2 j (2 * i)) (g2 j (2 * i + 1))).
    { intros i Hi Hin. rewrite HG2d by done. by rewrite !Hlow by lia. }
    (* the alive slots of the next row *)
    assert (Hhold' : forall i c, Lr (S j) !! i = Some (Some c) -> holds H g2 (S j) (N.of_nat i) c).
    { intros i c Hi. assert (Hni : node n (N.of_nat (S j)) (N.of_nat i)).
      { apply (row_node n n62 L0 HL0). apply lookup_lt_Some in Hi. unfold size. lia. }
      assert (HYi : Yr (S j) <> N.of_nat i).
      { intros EY. destruct (decide (dead 0 (Lr (S j)) = [])) as [Ed|Ed].
        - unfold Y in EY. rewrite tailpos_full in EY by done. apply lookup_lt_Some in Hi. unfold size in EY. lia.
        - pose proof (tailpos_dead (N.to_nat R - S j) (Lr (S j)) (rows_bound62 n L0 (S j) HL0 ltac:(lia)) Ed) as Hx.
          fold (Yr (S j)) in Hx. rewrite EY, Nat2N.id, Hi in Hx. done. }
      rewrite rowat_S in Hi.
      destruct (row_alive (Lr j) i c (Yr (S j)) Hi HYi) as (a & b & i0 & i1 & -> & Ha & Hb & Hs0 & Hsg1 & Hor).
      apply cont_lookup, Hhold in Ha as [Hal Ha]. apply cont_lookup, Hhold in Hb as [Hbl Hb]. rewrite N2Nat.id in *.
      apply holds_app; [done|done|..].
      - intros r x Hr Hx. rewrite <- Hs0, Hmove by done. by apply Ha.
      - intros r x Hr Hx. rewrite <- Hsg1, Hmove by done. by apply Hb.
      - destruct (decide (N.of_nat i ∈ D1)) as [Hin|Hin]; [by apply Hrow|].
        assert (Hnin : N.of_nat i ∉ D) by (intros Hx; apply Hin; rewrite ED1; apply elem_of_app; by left).
        destruct Hor as [[E0 E1']|(u & v & Huv & Ev)].
        + rewrite HG2 by (by right). rewrite HG1' by lia.
          destruct (Hcons j (N.of_nat i) ltac:(lia) Hni) as [Hc|(d & Hd & Ed)].
          * rewrite Hc. f_equal.
            -- pose proof (Hmove0 i0) as Hm0. rewrite Hs0, E0 in Hm0. done.
            -- pose proof (Hmove0 i1) as Hm0. rewrite Hsg1, E1' in Hm0. done.
          * rewrite Nat.sub_diag in Ed. change (2 ^ N.of_nat 0) with 1 in Ed. rewrite N.div_1_r in Ed. congruence.
        + destruct Hin. rewrite ED1. apply elem_of_app. right. apply elem_of_list_fmap. exists (u, v). done. }
    (* consistency above *)
    assert (Hcons' : forall r i, (S j <= r)%nat -> node n (N.of_nat (S r)) i ->
      g2 (S r) i = H (g2 r (2 * i)) (g2 r (2 * i + 1)) \/ exists d, d ∈ D2 /\ d / 2 ^ N.of_nat (r - S j) = i).
    { intros r i Hr Hi.
      assert (Hdirt : forall d, d ∈ D1 -> d / 2 ^ N.of_nat (r - j) = i -> exists d, d ∈ D2 /\ d / 2 ^ N.of_nat (r - S j) = i).
      { intros d Hd Ed. exists (d / 2).
        assert (E : d / 2 / 2 ^ N.of_nat (r - S j) = i).
        { rewrite <- Ed. rewrite N.div_div by (pose proof (pow_pos (N.of_nat (r - S j))); lia). f_equal.
          rewrite <- pow_nat_S. do 2 f_equal. lia. }
        split; [|done]. apply HD2'; [done|].
        unfold node in *. remember (d / 2) as q eqn:Eq. clear Eq Ed.
        replace (N.of_nat (S r)) with (N.of_nat (S (S j)) + N.of_nat (r - S j)) in Hi by lia. rewrite N.pow_add_r in Hi.
        pose proof (pow_pos (N.of_nat (r - S j))) as HP1. pose proof (pow_pos (N.of_nat (S (S j)))) as HP2. revert E Hi HP1 HP2.
        generalize (2 ^ N.of_nat (r - S j)) (2 ^ N.of_nat (S (S j))). clear. intros P Q E Hi HP1 HP2.
        pose proof (N.mul_succ_div_gt q P ltac:(lia)) as Hx. rewrite E in Hx.
        assert (q + 1 <= (i + 1) * P) by lia. nia. }
      assert (HinD : forall d, d ∈ D -> d ∈ D1) by (intros d Hd; rewrite ED1; apply elem_of_app; by left).
      destruct (Hcons r i ltac:(lia) Hi) as [Hc|(d & Hd & Ed)]; [|right; eapply Hdirt; [by apply HinD|done]].
      assert (Hup : g2 (S r) i = g (S r) i) by (rewrite HG2 by (left; lia); by apply HG1'; lia).
      destruct (decide (r = S j)) as [->|Hne].
      - replace (S j - j)%nat with 1%nat in Hdirt by lia. change (2 ^ N.of_nat 1) with 2 in Hdirt.
        destruct (decide (2 * i ∈ D1)) as [Hin|Hin0].
        { right. apply (Hdirt (2 * i) Hin). rewrite N.mul_comm. by apply N.div_mul. }
        destruct (decide (2 * i + 1 ∈ D1)) as [Hin|Hin1].
        { right. apply (Hdirt (2 * i + 1) Hin). clear. dlia. }
        left. rewrite Hup, Hc. f_equal; rewrite HG2 by (by right); symmetry; apply HG1'; lia.
      - left. rewrite Hup, Hc. f_equal; rewrite HG2 by (left; lia); symmetry; apply HG1'; lia. }
    destruct (IH (S j) g2 D2 g3 ltac:(lia) HD2 Hhold' Hcons' Hrel) as (HA & HB).
    assert (Hal : alive (Lr j) = 2 * alive (Lr (S j)) + bit (Lr j)) by (rewrite rowat_S; apply alive_next).
    split.
    + intros m Hm r i Hi.
      destruct m as [|m]; [exfalso; change (2 ^ N.of_nat 0) with 1 in Hm; assert (alive (Lr j) = 0) as Ea by (pose proof (alive_le (Lr j)); lia);
        rewrite Ea in Hi; pose proof (pow_pos (N.of_nat r)); nia|].
      assert (Hm' : size (Lr (S j)) < 2 ^ N.of_nat m).
      { rewrite rowat_S, next_row_size. rewrite pow_nat_S in Hm. revert Hm. generalize (2 ^ N.of_nat m). intros P Hm. clear - Hm. dlia. }
      cbn [remove_rows]. rewrite <- rowat_S. fold (rps (Lr j)).
      assert (Hsz : size (remove_rows m (Lr (S j))) = alive (Lr (S j)) * 2 ^ N.of_nat (S j)).
      { apply remove_rows_size; [done|]. rewrite rowat_S. apply full_next. intros i' c Hc. by apply Hhold in Hc as [Hc _]. }
      destruct (N.le_gt_cases ((i + 1) * 2 ^ N.of_nat r) (alive (Lr (S j)) * 2 ^ N.of_nat (S j))) as [Hle|Hgt].
      * rewrite nh_app1 by (by rewrite Hsz). apply HA; done.
      * pose proof (row_root_moved (Lr j) (Yr (S j))) as Hroot.
        destruct (new_root (row_root (Lr j)) (rps (Lr j))) as [c|].
        2:{ exfalso. assert (bit (Lr j) = 0) as Eb by (unfold bit; by rewrite Hroot).
            rewrite Hal, Eb in Hi. rewrite pow_nat_S in Hgt. clear - Hi Hgt. lia. }
        destruct Hroot as (fr & Hcf & Hcont & Hsig). apply cont_lookup, Hhold in Hcont as [Hcl Hc]. rewrite N2Nat.id in Hc.
        assert (Hb : bit (Lr j) = 1) by (unfold bit; by rewrite Hcf). rewrite Hb in *.
        unfold default.
        assert (Hrj : (r <= j)%nat).
        { destruct (decide (r <= j)%nat) as [|Hr]; [done|]. exfalso.
          replace (N.of_nat r) with (N.of_nat (S j) + N.of_nat (r - S j)) in Hi, Hgt by lia. rewrite N.pow_add_r in Hi, Hgt.
          rewrite Hal in Hi. rewrite pow_nat_S in Hi, Hgt. pose proof (pow_pos (N.of_nat j)) as Hp0.
          revert Hi Hgt Hp0. generalize (2 ^ N.of_nat j) (2 ^ N.of_nat (r - S j)) (alive (Lr (S j))). clear.
          intros P Q a Hi Hgt HP. replace ((i + 1) * (2 * P * Q)) with (P * (2 * ((i + 1) * Q))) in * by lia.
          remember ((i + 1) * Q) as z. clear Heqz.
          assert (2 * z <= 2 * a + 1) by (apply (N.mul_le_mono_pos_l _ _ P); lia).
          assert (2 * a < 2 * z) by (apply (N.mul_lt_mono_pos_l P); lia). lia. }
        replace (2 ^ N.of_nat j) with (2 ^ N.of_nat (j - r) * 2 ^ N.of_nat r) in Hi by (rewrite <- N.pow_add_r; f_equal; lia).
        assert (HS : 2 ^ N.of_nat (S j) = 2 * 2 ^ N.of_nat (j - r) * 2 ^ N.of_nat r).
        { rewrite pow_nat_S, <- N.mul_assoc, <- N.pow_add_r. do 2 f_equal. lia. }
        rewrite HS in Hgt.
        assert (Hix : exists x, i = alive (Lr (S j)) * (2 * 2 ^ N.of_nat (j - r)) + x /\ x < 2 ^ N.of_nat (j - r)).
        { exists (i - alive (Lr (S j)) * (2 * 2 ^ N.of_nat (j - r))). rewrite Hal in Hi.
          pose proof (pow_pos (N.of_nat r)) as Hp0. revert Hi Hgt Hp0.
          generalize (2 ^ N.of_nat (j - r)) (2 ^ N.of_nat r) (alive (Lr (S j))). clear. intros P Q a Hi Hgt HQ.
          assert (a * (2 * P) < i + 1) by nia. assert (i + 1 <= (2 * a + 1) * P) by nia. lia. }
        destruct Hix as (x & -> & Hx).
        rewrite (nh_app2 H _ c r (alive (Lr (S j)) * (2 * 2 ^ N.of_nat (j - r))) x) by (rewrite Hsz, HS; lia).
        specialize (HB r x ltac:(lia)). replace (S j - r)%nat with (S (j - r)) in HB by lia. rewrite pow_nat_S in HB.
        rewrite HB by lia.
        replace (Yr (S j) * (2 * 2 ^ N.of_nat (j - r)) + x) with (2 * Yr (S j) * 2 ^ N.of_nat (j - r) + x) by lia.
        rewrite <- Hsig, Hmove by done. by apply Hc.
    + intros r x Hr Hx. rewrite Hal.
      specialize (HB r (bit (Lr j) * 2 ^ N.of_nat (j - r) + x) ltac:(lia)). replace (S j - r)%nat with (S (j - r)) in HB by lia.
      rewrite pow_nat_S in HB. pose proof (bit_le (Lr j)) as Hbl.
      replace ((2 * alive (Lr (S j)) + bit (Lr j)) * 2 ^ N.of_nat (j - r) + x)
        with (alive (Lr (S j)) * (2 * 2 ^ N.of_nat (j - r)) + (bit (Lr j) * 2 ^ N.of_nat (j - r) + x)) by lia.
      rewrite HB by nia.
      replace (Yr (S j) * (2 * 2 ^ N.of_nat (j - r)) + (bit (Lr j) * 2 ^ N.of_nat (j - r) + x))
        with ((2 * Yr (S j) + bit (Lr j)) * 2 ^ N.of_nat (j - r) + x) by lia.
      rewrite <- Hmove by done. do 2 f_equal. f_equal. symmetry. unfold Y.
      replace (N.to_nat R - j)%nat with (S (N.to_nat R - S j)) by lia. rewrite rowat_S. apply sigma_tail.
      replace (S (N.to_nat R - S j)) with (N.to_nat R - j)%nat by lia. apply (rows_bound62 n L0 j HL0). lia.
Qed.
End RowsPure.

(** ** All rows *)
Section Rows.
Context (H : hash -> hash -> hash).
Context (n : N) (Hn : n <= 2 ^ 31) (L0 : list cell) (HL0 : size L0 = n).
Context (h : nat) (HhR : (h <= N.to_nat (NumRows n))%nat) (Hdead : forall i, (i < h)%nat -> dead 0 (rowat L0 i) <> [])
  (Hend : h = N.to_nat (NumRows n) \/ dead 0 (rowat L0 h) = []) (Hnn : alive L0 < n).
Notation R := (NumRows n).
Notation Lr := (rowat L0).
Notation Yr := (Y n L0).
Notation swaps := (fin n L0 <$> seq 0 h).

Lemma n62 : n <= 2 ^ 62.
Proof. assert (2 ^ 31 <= 2 ^ 62) by done. lia. Qed.
Lemma R31 : R <= 31.
Proof. by apply NumRows_le. Qed.
Lemma dead_above j : (h <= j)%nat -> (j < N.to_nat R)%nat -> dead 0 (Lr j) = [].
Proof.
  intros Hhj Hj. destruct Hend as [->|E]; [lia|]. replace j with (j - h + h)%nat by lia.
  assert (Hk : forall k, dead 0 (Lr (k + h)) = []).
  { induction k as [|k IH]; [done|]. cbn [Nat.add]. rewrite rowat_S. by destruct (full_row _ IH) as (_ & _ & Hx & _). }
  apply Hk.
Qed.
Lemma rows_bound j : (j <= N.to_nat R)%nat -> size (Lr j) <= 2 ^ N.of_nat (N.to_nat R - j).
Proof. apply (rows_bound62 n L0 j HL0). Qed.
Lemma colpair_node j s : (j < h)%nat -> s ∈ colpair n L0 j -> node n (N.of_nat j) s.1 /\ node n (N.of_nat j) s.2 /\ s.1 <> s.2.
Proof. apply (colpair_node62 n n62 L0 HL0 h HhR Hdead). Qed.
Lemma rsws_node j s : s ∈ rsws (Lr j) -> node n (N.of_nat j) s.1 /\ node n (N.of_nat j) s.2 /\ s.1 <> s.2.
Proof. apply (rsws_node62 n n62 L0 HL0). Qed.
Lemma sigma_colpair j x : act (colpair n L0 j) (act (rsws (Lr j)) x) = sigma (Lr j) (Yr (S j)) x.
Proof.
  unfold colpair, sigma. destruct (colfrom (Lr j)) as [f|]; [|done].
  destruct (N.eqb_spec f (2 * Yr (S j))) as [<-|]; [by rewrite sw_same|done].
Qed.

Lemma swaps_row_ok j f D : (j < N.to_nat R)%nat -> wide f n -> posmap_inv f n ->
  exists f1, (if N.of_nat j <? size swaps then
           let* ss := vec_at swaps (N.of_nat j) in
           let* r := F_do_swaps f ss in
           Ok (r.1, (enc R (N.of_nat (S j)) <$> D) ++ r.2)
         else Ok (f, enc R (N.of_nat (S j)) <$> D)) = Ok (f1, enc R (N.of_nat (S j)) <$> (D ++ ((λ s : N * N, s.2 / 2) <$> rsws (Lr j)))) /\
    same_shape f f1 /\ posmap_inv f1 n /\
    (forall r i, (r <= j)%nat -> G f1 r (lift (N.of_nat (j - r)) (sigma (Lr j) (Yr (S j))) i) = G f r i) /\
    (forall r i, (j < r)%nat -> G f1 r i = G f r i).
Proof.
  intros Hj Hw Hp. unfold size at 1. rewrite fmap_length, seq_length.
  destruct (N.ltb_spec (N.of_nat j) (N.of_nat h)) as [Hjh|Hjh].
  - assert (Hva : vec_at swaps (N.of_nat j) = Ok (fin n L0 j)).
    { unfold vec_at. rewrite Nat2N.id, list_lookup_fmap, lookup_seq_lt by lia. done. }
    rewrite Hva. cbn [bind]. unfold fin. rewrite do_swaps_app.
    pose proof R31 as HR.
    destruct (do_swaps_ok n j false (rsws (Lr j)) Hn ltac:(lia) ltac:(intros s Hs; by apply rsws_node) f Hw Hp)
      as (f1 & E1 & Hs1 & Hp1 & HG1).
    assert (Hw1 : wide f1 n) by (by eapply wide_same).
    destruct (do_swaps_ok n j true (colpair n L0 j) Hn ltac:(lia) ltac:(intros s Hs; apply colpair_node; [lia|done]) f1 Hw1 Hp1)
      as (f2 & E2 & Hs2 & Hp2 & HG2).
    unfold sws. unfold mk_collapse in E1. unfold mk_swap. rewrite E1. cbn [bind fst snd]. rewrite E2. cbn [bind fst snd].
    exists f2. split.
    { rewrite app_nil_r, fmap_app, <- list_fmap_compose. done. }
    split; [by eapply same_trans|]. split; [done|]. split.
    + intros r i Hr. rewrite <- HG1, <- HG2. f_equal. unfold actt. destruct (Nat.leb_spec r j); [|lia].
      rewrite lift_lift. unfold lift. by rewrite sigma_colpair.
    + intros r i Hr. specialize (HG1 r i). specialize (HG2 r i). unfold actt in *. destruct (Nat.leb_spec r j); [lia|].
      congruence.
  - exists f. pose proof (dead_above j ltac:(lia) Hj) as Hd. destruct (full_row _ Hd) as (_ & -> & _).
    split; [cbn [fmap list_fmap]; by rewrite app_nil_r|]. split; [done|]. split; [done|]. split; [|done].
    intros r i Hr. rewrite lift_id; [done|]. intros y. unfold Y. apply sigma_full. done.
Qed.

(** The way of a leaf through the rows [j .. j+k-1]. *)
Fixpoint rowsact (k j : nat) (x : N) : N :=
  match k with
  | O => x
  | S k' => rowsact k' (S j) (lift (N.of_nat j) (sigma (Lr j) (Yr (S j))) x)
  end.

Lemma rows_ok k : forall j f D, (j + k)%nat = N.to_nat R -> wide f n -> posmap_inv f n ->
  (forall d, d ∈ D -> node n (N.of_nat (S j)) d) ->
  exists f', F_remove_rows H k (N.of_nat j) n swaps f (enc R (N.of_nat (S j)) <$> D) = Ok (f', []) /\
    same_shape f f' /\ posmap_inv f' n /\ rowsrel H n L0 k j (G f) D (G f') /\
    (forall x, G f' 0 (rowsact k j x) = G f 0 x).
Proof.
  induction k as [|k IH]; intros j f D Hj Hw Hp HD.
  - assert (D = []) as ->.
    { destruct D as [|d D]; [done|]. assert (Hd : node n (N.of_nat (S j)) d) by (apply HD; left).
      apply node_row in Hd. lia. }
    exists f. cbn [F_remove_rows]. done.
  - cbn [F_remove_rows].
    destruct (swaps_row_ok j f D ltac:(lia) Hw Hp) as (f1 & E1 & Hs1 & Hp1 & HG1 & HG1').
    rewrite E1. cbn [bind fst snd]. fold (newdirt L0 j D).
    assert (HD1 : forall d, d ∈ newdirt L0 j D -> node n (N.of_nat (S j)) d).
    { intros d Hd. by apply (newdirt_node n n62 L0 HL0 j D). }
    assert (Hw1 : wide f1 n) by (by eapply wide_same).
    destruct (rehash_dirt_ok H n j (newdirt L0 j D) n62 HD1 f1 [] Hw1) as (f2 & D2 & E2 & Hc2 & HG2 & HG2d & _ & HD2 & HD2').
    change (enc R (N.of_nat (S (S j))) <$> []) with (@nil N) in E2. rewrite E2. cbn [bind fst snd].
    assert (Hs2 : same_shape f1 f2) by (by apply same_cells).
    assert (Hw2 : wide f2 n) by (by eapply wide_same).
    assert (Hlow : forall r i, (r <= j)%nat -> G f2 r i = G f1 r i) by (intros r i Hr; apply HG2; left; lia).
    assert (Hp2 : posmap_inv f2 n).
    { eapply posmap_inv_ext; [by apply cells_only_posmap| |done]. intros i _. apply Hlow. lia. }
    assert (HD2n : forall d, d ∈ D2 -> node n (N.of_nat (S (S j))) d).
    { intros d Hd. apply HD2 in Hd as [Hd%elem_of_nil|Hd]; done. }
    destruct (IH (S j) f2 D2 ltac:(lia) Hw2 Hp2 HD2n) as (f3 & E3 & Hs3 & Hp3 & Hrel & HC).
    replace (N.of_nat j + 1) with (N.of_nat (S j)) by lia. rewrite E3.
    exists f3. split; [done|]. split; [eapply same_trans; [done|by eapply same_trans]|]. split; [done|].
    split; [by exists (G f1), (G f2), D2|].
    intros x. cbn [rowsact]. rewrite HC, Hlow by lia. specialize (HG1 0%nat x ltac:(lia)).
    rewrite Nat.sub_0_r in HG1. exact HG1.
Qed.
End Rows.
