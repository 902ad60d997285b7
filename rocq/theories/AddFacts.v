(** * AddFacts: adding leaves to a RamForest (proofs) *)
From stdpp Require Import sorting.
From Verif Require Import Base StateModel ForestModel PosSpec PosFacts PathFacts MerkleSpec ForestFacts RowFacts
  TransformFacts RemoveFacts ForestInv.
From Coq Require Import ZifyBool ZifyNat ZifyN.
Ltac Zify.zify_post_hook ::= idtac.
Ltac dlia := zify; Z.div_mod_to_equations; lia.

(** ** Preallocation *)
Lemma vec_resize_size {A} (l : list A) k d : size (vec_resize l k d) = k.
Proof. unfold size, vec_resize. rewrite app_length, take_length, replicate_length. lia. Qed.
Lemma vec_resize_total {A} `{Inhabited A} (l : list A) k d i : N.of_nat i < k -> N.of_nat i < size l ->
  vec_resize l k d !!! i = l !!! i.
Proof.
  unfold size. intros Hk Hl. unfold vec_resize. rewrite lookup_total_app_l by (rewrite take_length; lia).
  rewrite !list_lookup_total_alt, lookup_take by lia. done.
Qed.

Lemma shr64_div x k : k < 64 -> shr64 x k = Ok (x / 2 ^ k).
Proof. intros Hk. unfold shr64. destruct (N.ltb_spec k 64); [|lia]. by rewrite N.shiftr_div_pow2. Qed.

Lemma resize_ok next d k : k <= 64 ->
  exists d', foldM (F_resize_row next) d (nseq 0 k) = Ok d' /\ size d' = N.max (size d) k /\
    forall r, d' !!! r = if N.of_nat r <? k then vec_resize (d !!! r) (next / 2 ^ N.of_nat r) zero_hash else d !!! r.
Proof.
  induction k as [|k IH] using N_ind1; intros Hk.
  - exists d. split; [done|]. split; [lia|]. intros r. destruct (N.ltb_spec (N.of_nat r) 0); [lia|done].
  - destruct (IH ltac:(lia)) as (d1 & E1 & Hs1 & H1). rewrite nseq_snoc, foldM_app, E1. cbn [bind foldM].
    rewrite N.add_0_l. unfold F_resize_row.
    remember (if size d1 <=? k then d1 ++ [[]] else d1) as d2 eqn:Ed2.
    assert (Hs2 : size d2 = N.max (size d) (k + 1) /\ k < size d2).
    { subst d2. destruct (N.leb_spec (size d1) k); [|lia]. unfold size in *. rewrite app_length. cbn [length]. lia. }
    assert (H2 : forall r, d2 !!! r = d1 !!! r).
    { intros r. subst d2. destruct (N.leb_spec (size d1) k); [|done]. destruct (decide (r < length d1)%nat) as [Hr|Hr].
      - by apply lookup_total_app_l.
      - rewrite (lookup_total_ge d1) by lia. rewrite lookup_total_app_r by lia.
        destruct (r - length d1)%nat as [|x]; [done|]. apply lookup_total_ge. cbn. lia. }
    rewrite vec_at_ok by lia. cbn [bind]. rewrite shr64_div by lia. cbn [bind]. rewrite vec_set_ok by lia. cbn [bind].
    eexists. split; [done|]. split; [rewrite size_insert; lia|].
    intros r. rewrite insert_total by (rewrite N2Nat.id; lia). rewrite !H2, !H1, N2Nat.id.
    destruct (decide (r = N.to_nat k)) as [->|Hne].
    + rewrite N2Nat.id. destruct (N.ltb_spec k k); [lia|]. destruct (N.ltb_spec k (k + 1)); [done|lia].
    + destruct (N.ltb_spec (N.of_nat r) k); destruct (N.ltb_spec (N.of_nat r) (k + 1)); try lia; done.
Qed.

(** ** Trailing ones *)
Definition npos (n r : N) : N := if n =? 1 then 1 else enc (NumRows n) r (n / 2 ^ r).

Lemma ones_step n r q : n + 1 = q * 2 ^ r ->
  n / 2 ^ r = q - 1 /\ (N.testbit n r = true -> exists q', q = 2 * q') /\ (N.testbit n r = false -> exists q', q = 2 * q' + 1).
Proof.
  intros Hq. pose proof (pow_pos r) as Hp.
  assert (Hd : n / 2 ^ r = q - 1).
  { revert Hq Hp. generalize (2 ^ r). intros P Hq Hp. destruct (N.eq_dec q 0) as [->|]; [lia|].
    replace q with (q - 1 + 1) in Hq by lia. remember (q - 1) as s eqn:Es. clear Es.
    symmetry. apply (N.div_unique n P s (P - 1)); lia. }
  split; [done|]. rewrite testbit_mod, Hd. assert (0 < q) by nia. clear - H.
  split; intros E.
  - exists (q / 2). assert ((q - 1) mod 2 = 1) by lia. dlia.
  - exists (q / 2). assert ((q - 1) mod 2 <> 1) by lia. dlia.
Qed.

Lemma npos_ok n r q : n <= 2 ^ 62 -> n + 1 = q * 2 ^ (r + 1) ->
  Parent n (npos n r) = Ok (npos n (r + 1)) /\ DetectRow n (npos n (r + 1)) = Ok (r + 1) /\
  exists off, RowOffset n (npos n (r + 1)) = Ok off /\ sub64 (npos n (r + 1)) off = n / 2 ^ (r + 1).
Proof.
  intros Hn Hq. unfold npos. destruct (N.eqb_spec n 1) as [->|Hn1].
  - assert (r = 0) as ->.
    { destruct (N.eq_dec r 0); [done|]. exfalso. replace (r + 1) with (2 + (r - 1)) in Hq by lia. rewrite N.pow_add_r in Hq.
      change (2 ^ 2) with 4 in Hq. remember (2 ^ (r - 1)) as P. nia. }
    split; [done|]. split; [done|]. by exists 1.
  - assert (Hlt : n < 2 ^ NumRows n).
    { pose proof (NumRows_bound n) as Hb. destruct (N.eq_dec n (2 ^ NumRows n)) as [E|]; [|lia]. exfalso.
      destruct (N.eq_dec (NumRows n) 0) as [E0|E0]; [rewrite E0 in E; done|].
      replace (NumRows n) with (NumRows n - 1 + 1) in E by lia. rewrite pow_S in E, Hq.
      remember (2 ^ (NumRows n - 1)) as A. remember (2 ^ r) as B. clear - E Hq. assert (2 * (q * B) = 2 * A + 1) by lia. lia. }
    assert (HrR : r + 1 <= NumRows n).
    { apply N.nlt_ge. intros Hr. assert (2 ^ NumRows n <= 2 ^ r) by (apply N.pow_le_mono_r; lia). rewrite pow_S in Hq.
      pose proof (pow_pos r). destruct (N.eq_dec q 0) as [->|]; [lia|].
      assert (1 * (2 * 2 ^ r) <= q * (2 * 2 ^ r)) by (apply N.mul_le_mono_r; lia). lia. }
    pose proof (R62 n Hn) as HR.
    assert (Hs : forall x, x <= r + 1 -> slot (NumRows n) x (n / 2 ^ x)).
    { intros x Hx. split; [lia|]. apply N.div_lt_upper_bound; [pose proof (pow_pos x); lia|]. rewrite <- N.pow_add_r.
      by replace (x + (NumRows n - x)) with (NumRows n) by lia. }
    rewrite Parent_ok by (done || (apply Hs; lia)). rewrite DetectRow_ok by (done || (apply Hs; lia)).
    rewrite div_pow_S. split; [done|]. split; [done|]. eexists. split; [apply RowOffset_ok; [done|]; rewrite <- div_pow_S; apply Hs; lia|].
    apply enc_off; [rewrite <- div_pow_S; apply Hs; lia|lia].
Qed.

(** ** Root rows from a row upwards *)
Definition rr (r : N) (k : nat) (n : N) : list N := filter (λ x, r <= x) (root_rows k n).
Lemma rr_0 k n : rr 0 k n = root_rows k n.
Proof. unfold rr. induction (root_rows k n) as [|x l IH]; [done|]. rewrite filter_cons_True by lia. by rewrite IH. Qed.
Lemma rr_S r k n : rr r k n = rr (r + 1) k n ++ (if N.testbit n r && (r <=? N.of_nat k) then [r] else []).
Proof.
  unfold rr. induction k as [|k IH]; cbn [root_rows].
  - rewrite app_nil_r. destruct (N.eq_dec r (N.of_nat 0)) as [->|Hne].
    + destruct (N.testbit n (N.of_nat 0)); [|done]. cbn [andb]. rewrite filter_cons_True by lia. rewrite filter_cons_False by lia. done.
    + destruct (N.leb_spec r (N.of_nat 0)); [lia|]. rewrite andb_false_r, app_nil_r.
      destruct (N.testbit n (N.of_nat 0)); [|done]. rewrite !filter_cons_False by lia. done.
  - rewrite !filter_app, IH, app_assoc. destruct (N.eq_dec r (N.of_nat (S k))) as [->|Hne].
    + destruct (N.leb_spec (N.of_nat (S k)) (N.of_nat k)); [lia|]. rewrite andb_false_r, app_nil_r. rewrite N.leb_refl, andb_true_r.
      assert (Hnil : filter (λ x, N.of_nat (S k) + 1 <= x) (root_rows k n) = []).
      { clear. induction (root_rows k n) as [|x l IH] eqn:El in |- *; [done|].
        enough (Hg : forall l : list N, (forall x, x ∈ l -> x <= N.of_nat k) -> filter (λ x, N.of_nat (S k) + 1 <= x) l = []).
        { rewrite <- El. apply Hg. intros y [Hy _]%root_rows_elem. done. }
        clear. induction l as [|x l IH]; intros Hl; [done|]. rewrite filter_cons_False; [apply IH; intros; apply Hl; by right|].
        specialize (Hl x ltac:(left)). lia. }
      rewrite Hnil, !app_nil_r. destruct (N.testbit n (N.of_nat (S k))); [|done].
      rewrite filter_cons_True by lia. rewrite filter_cons_False by lia. done.
    + replace (r <=? N.of_nat (S k)) with (r <=? N.of_nat k) by lia.
      f_equal. f_equal. destruct (N.testbit n (N.of_nat (S k))); [|done].
      destruct (decide (r <= N.of_nat (S k))).
      * rewrite !filter_cons_True by lia. done.
      * rewrite !filter_cons_False by lia. done.
Qed.
Lemma rr_ext r k n m : (forall x, r <= x -> N.testbit n x = N.testbit m x) -> rr r k n = rr r k m.
Proof.
  intros Hb. unfold rr. induction k as [|k IH]; cbn [root_rows].
  - rewrite !app_nil_r. destruct (decide (r <= N.of_nat 0)) as [Hr|Hr].
    + by rewrite Hb.
    + destruct (N.testbit n (N.of_nat 0)), (N.testbit m (N.of_nat 0)); rewrite ?filter_cons_False by lia; done.
  - rewrite !filter_app, IH. f_equal. destruct (decide (r <= N.of_nat (S k))) as [Hr|Hr].
    + by rewrite Hb.
    + destruct (N.testbit n (N.of_nat (S k))), (N.testbit m (N.of_nat (S k))); rewrite ?filter_cons_False by lia; done.
Qed.
Lemma rr_low r q k n : n = q * 2 ^ r -> rr 0 k n = rr r k n.
Proof.
  intros Hq. assert (Hb : forall x, x < r -> N.testbit n x = false) by (intros x Hx; rewrite Hq, N.mul_pow2_bits_low; done).
  clear Hq. revert Hb. induction r as [|r IH] using N_ind1; intros Hb; [done|].
  rewrite IH by (intros; apply Hb; lia). rewrite rr_S, Hb by lia. by rewrite app_nil_r.
Qed.

(** ** Merging roots *)
Lemma vec_pop_snoc {A} (l : list A) x : vec_pop (l ++ [x]) = Ok l.
Proof.
  unfold vec_pop. destruct (l ++ [x]) eqn:E; [by destruct l|]. rewrite <- E. by rewrite removelast_last.
Qed.
Lemma vec_back_snoc {A} (l : list A) x : vec_back (l ++ [x]) = Ok x.
Proof. unfold vec_back. by rewrite last_snoc. Qed.

Definition cap (f : forest) (next B : N) : Prop :=
  forall r, next / 2 ^ N.of_nat r <= len f r /\ len f r < two64 /\ (N.of_nat r <= NumRows next -> len f r <= B).

Lemma ones_node n next r q : n + 1 = q * 2 ^ r -> n + 1 <= next -> node next r (n / 2 ^ r).
Proof.
  intros Hq Hn. destruct (ones_step n r q Hq) as [-> _]. unfold node.
  destruct (N.eq_dec q 0) as [->|]; [lia|]. replace (q - 1 + 1) with q by lia. lia.
Qed.

Lemma F_MergeRoot_ok f n next B r q ph rs a b : n <= 2 ^ 62 -> f_n f = n -> n + 1 = q * 2 ^ (r + 1) -> n + 1 <= next ->
  cap f next B -> B + 1 < two64 -> f_roots f = rs ++ [a; b] ->
  exists f', F_MergeRoot f (npos n (r + 1)) ph = Ok f' /\ f_n f' = n /\
    f_roots f' = rs ++ [RNode ph n (npos n (r + 1))] /\ f_posmap f' = f_posmap f /\ size (f_data f') = size (f_data f) /\
    cap f' next (B + 1) /\ G f' (N.to_nat (r + 1)) (n / 2 ^ (r + 1)) = ph /\
    (forall r' i, i < len f r' -> (N.of_nat r' <> r + 1 \/ i <> n / 2 ^ (r + 1)) -> G f' r' i = G f r' i).
Proof.
  intros Hn Hfn Hq Hnext Hcap HB Hrs. destruct (npos_ok n r q Hn Hq) as (_ & Hdr & off & Hoff & Hidx).
  pose proof (ones_node n next (r + 1) q Hq Hnext) as Hnode. pose proof (node_row _ _ _ Hnode) as HrK.
  pose proof Hnode as Hlt%node_iff. destruct (Hcap (N.to_nat (r + 1))) as (Hc1 & Hc2 & Hc3). rewrite N2Nat.id in Hc1, Hc3.
  specialize (Hc3 HrK). remember (n / 2 ^ (r + 1)) as i eqn:Ei. assert (Hi : i < len f (N.to_nat (r + 1))) by lia.
  pose proof (len_row _ _ _ Hi) as Hrow. rewrite N2Nat.id in Hrow.
  unfold F_MergeRoot. rewrite Hrs. unfold assert_ at 1.
  assert (2 <=? size (rs ++ [a; b]) = true) as -> by (unfold size; rewrite app_length; cbn [length]; lia). cbn [bind].
  change (rs ++ [a; b]) with (rs ++ ([a] ++ [b])). rewrite app_assoc, vec_pop_snoc. cbn [bind]. rewrite vec_pop_snoc. cbn [bind].
  rewrite Hfn, Hdr. cbn [bind]. unfold assert_. destruct (N.ltb_spec (r + 1) (size (f_data f))); [|lia]. cbn [bind].
  rewrite vec_at_ok by done. cbn [bind]. rewrite Hoff. cbn [bind]. rewrite Hidx.
  remember (f_data f !!! N.to_nat (r + 1)) as rd eqn:Erd.
  assert (Hrd : size rd = len f (N.to_nat (r + 1))) by (rewrite Erd; done).
  assert (Hsz : size (rd ++ [ph]) = size rd + 1) by (unfold size; rewrite app_length; cbn [length]; lia).
  rewrite vec_set_ok by lia. cbn [bind]. rewrite vec_set_ok by lia. cbn [bind].
  assert (Hins : <[N.to_nat i := ph]> (rd ++ [ph]) = <[N.to_nat i := ph]> rd ++ [ph]).
  { apply insert_app_l. unfold size in *. lia. }
  rewrite Hins, vec_back_snoc. cbn [bind].
  assert (Hlen : forall x, len (Forest n (<[N.to_nat (r + 1) := <[N.to_nat i := ph]> rd ++ [ph]]> (f_data f)) (rs ++ [RNode ph n (npos n (r + 1))]) (f_posmap f)) x
     = len f x + (if decide (x = N.to_nat (r + 1)) then 1 else 0)).
  { intros x. unfold len. cbn [f_data]. rewrite insert_total by (rewrite N2Nat.id; done).
    destruct (decide (x = N.to_nat (r + 1))) as [->|]; [|lia]. rewrite <- Erd. unfold size. rewrite app_length, insert_length. cbn [length]. lia. }
  eexists. split; [done|]. cbn [f_n f_roots f_posmap f_data]. split; [done|]. split; [done|]. split; [done|].
  split; [apply size_insert|]. split; [|split].
  - intros x. rewrite Hlen. destruct (Hcap x) as (Hx1 & Hx2 & Hx3). destruct (decide (x = N.to_nat (r + 1))) as [->|].
    + split; [lia|]. split; [lia|]. intros Hx. specialize (Hx3 Hx). lia.
    + rewrite N.add_0_r. split; [done|]. split; [done|]. intros Hx. specialize (Hx3 Hx). lia.
  - unfold G. cbn [f_data]. rewrite insert_total by (rewrite N2Nat.id; done). rewrite decide_True by done.
    rewrite lookup_total_app_l by (rewrite insert_length; unfold size in *; lia).
    rewrite insert_total by (rewrite N2Nat.id; lia). by rewrite decide_True.
  - intros r' j Hj Hne. unfold G. cbn [f_data]. rewrite insert_total by (rewrite N2Nat.id; done).
    destruct (decide (r' = N.to_nat (r + 1))) as [->|Hr']; [|done].
    rewrite lookup_total_app_l by (rewrite insert_length; unfold size in *; lia).
    rewrite insert_total by (rewrite N2Nat.id; lia). rewrite decide_False by (destruct Hne; lia). by rewrite <- Erd.
Qed.

Section Add.
Context (H : hash -> hash -> hash).
Notation hashes ls ts := ((λ t : N * N, nh H (leaf_at ls) (N.to_nat t.1) t.2) <$> ts) (only parsing).
Notation hroots ls rows := (hashes ls (root_at (size ls) <$> rows)) (only parsing).

Definition last_index (k : N) : option N := if k =? 0 then None else Some (k - 1).

Lemma node_len f next B n r i : cap f next B -> n <= next -> node n (N.of_nat r) i -> i < len f r.
Proof.
  intros Hc Hn Hi%node_iff. destruct (Hc r) as [Hx _].
  assert (n / 2 ^ N.of_nat r <= next / 2 ^ N.of_nat r) by (apply N.div_le_mono; [pose proof (pow_pos (N.of_nat r)); lia|lia]). lia.
Qed.

Lemma nh_new ls h r q : size ls + 1 = q * 2 ^ (r + 1) ->
  nh H (leaf_at (ls ++ [h])) (N.to_nat (r + 1)) (size ls / 2 ^ (r + 1)) =
  H (nh H (leaf_at ls) (N.to_nat r) (2 * (size ls / 2 ^ (r + 1)))) (nh H (leaf_at (ls ++ [h])) (N.to_nat r) (size ls / 2 ^ r)).
Proof.
  intros Hq. replace (N.to_nat (r + 1)) with (S (N.to_nat r)) by lia. cbn [nh].
  destruct (ones_step _ _ _ Hq) as [Hd _]. rewrite pow_S, N.mul_assoc in Hq. destruct (ones_step _ _ _ Hq) as [Hd' _].
  rewrite Hd, Hd'. assert (q <> 0) by (intros ->; lia). f_equal.
  - apply nh_app1. rewrite N2Nat.id. remember (2 ^ r) as P. replace (2 * (q - 1) + 1) with (2 * q - 1) by lia.
    rewrite N.mul_sub_distr_r. assert (0 < P) by (subst P; apply pow_pos). lia.
  - f_equal. lia.
Qed.

Lemma add_merge_ok ls h next K n fuel : size ls = n -> n + 1 <= next -> next <= 2 ^ 62 -> NumRows (n + 1) <= N.of_nat K ->
  forall r q f B, (N.of_nat fuel + r = 65) -> n + 1 = q * 2 ^ r -> f_n f = n -> cap f next B -> B + N.of_nat fuel < two64 ->
  (forall r' i, node n (N.of_nat r') i -> G f r' i = nh H (leaf_at ls) r' i) ->
  (forall r', N.of_nat r' <= r -> G f r' (n / 2 ^ N.of_nat r') = nh H (leaf_at (ls ++ [h])) r' (n / 2 ^ N.of_nat r')) ->
  F_Roots f = hroots ls (rr r K n) ++ [nh H (leaf_at (ls ++ [h])) (N.to_nat r) (n / 2 ^ r)] ->
  exists f' t q', F_add_merge H fuel f n r (last_index (size (rr r K n))) (nh H (leaf_at (ls ++ [h])) (N.to_nat r) (n / 2 ^ r)) (npos n r) = Ok f' /\
    n + 1 = q' * 2 ^ t /\ N.testbit n t = false /\ f_n f' = n /\ cap f' next (B + N.of_nat fuel) /\
    (forall r' i, node n (N.of_nat r') i -> G f' r' i = nh H (leaf_at ls) r' i) /\
    (forall r', N.of_nat r' <= t -> G f' r' (n / 2 ^ N.of_nat r') = nh H (leaf_at (ls ++ [h])) r' (n / 2 ^ N.of_nat r')) /\
    F_Roots f' = hroots ls (rr t K n) ++ [nh H (leaf_at (ls ++ [h])) (N.to_nat t) (n / 2 ^ t)] /\
    f_posmap f' = f_posmap f /\ size (f_data f') = size (f_data f).
Proof.
  intros Hls Hnext Hn62 HK. induction fuel as [|fuel IH]; intros r q f B Hfuel Hq Hfn Hcap HB Hold Hnew Hroots.
  { exfalso. assert (r = 65) as -> by lia. change (2 ^ 65) with (8 * 2 ^ 62) in Hq. remember (2 ^ 62) as P.
    destruct (N.eq_dec q 0) as [->|]; [lia|]. assert (1 * (8 * P) <= q * (8 * P)) by (apply N.mul_le_mono_r; lia). lia. }
  assert (Hr62 : r <= 62).
  { apply N.nlt_ge. intros Hr. assert (2 ^ 63 <= 2 ^ r) by (apply N.pow_le_mono_r; lia). change (2 ^ 63) with (2 * 2 ^ 62) in *.
    remember (2 ^ 62) as P. remember (2 ^ r) as Q. destruct (N.eq_dec q 0) as [->|]; [lia|].
    assert (1 * Q <= q * Q) by (apply N.mul_le_mono_r; lia). lia. }
  cbn [F_add_merge]. rewrite HasRoot_ok by lia. cbn [bind]. destruct (ones_step n r q Hq) as (Hdiv & Ht & Hf).
  destruct (N.testbit n r) eqn:Eb.
  - destruct (Ht eq_refl) as [q' Eq]. assert (Hq' : n + 1 = q' * 2 ^ (r + 1)) by (rewrite pow_S; lia).
    assert (HrK : r <= N.of_nat K).
    { pose proof (ones_node n (n + 1) r q Hq ltac:(lia)) as Hx%node_row. lia. }
    assert (Erows : rr r K n = rr (r + 1) K n ++ [r]).
    { rewrite rr_S, Eb. destruct (N.leb_spec r (N.of_nat K)); [done|lia]. }
    assert (Esz : size (rr r K n) = size (rr (r + 1) K n) + 1) by (rewrite Erows; unfold size; rewrite app_length; cbn [length]; lia).
    assert (Eidx : last_index (size (rr r K n)) = Some (size (rr (r + 1) K n))).
    { rewrite Esz. unfold last_index. destruct (N.eqb_spec (size (rr (r + 1) K n) + 1) 0); [lia|]. f_equal. lia. }
    rewrite Eidx.
    (* the two last roots *)
    rewrite Erows, !fmap_app in Hroots. unfold F_Roots in Hroots.
    rewrite <- app_assoc in Hroots. apply fmap_app_inv in Hroots as (rs & tl & Ers & Etl & Efr).
    destruct tl as [|a [|b [|? ?]]]; try (cbn in Etl; done). symmetry in Efr.
    cbn [fmap list_fmap app] in Etl. pose proof (f_equal (hd 0) Etl) as Ea. cbn [hd] in Ea.
    assert (Hlr : size rs = size (rr (r + 1) K n)).
    { unfold size. rewrite <- (fmap_length rn_hash rs), <- Ers, !fmap_length. done. }
    assert (Hget : vec_get (f_roots f) (size (rr (r + 1) K n)) = Ok a).
    { unfold vec_get. rewrite <- Efr, <- Hlr. unfold size. rewrite Nat2N.id. rewrite lookup_app_r by lia. by rewrite Nat.sub_diag. }
    rewrite Hget. cbn [bind]. destruct (npos_ok n r q' ltac:(lia) Hq') as (Hpar & _). rewrite Hpar. cbn [bind].
    unfold root_at in Ea. cbn [fst snd] in Ea. rewrite Hls in Ea. rewrite <- Ea.
    assert (Hph : H (nh H (leaf_at ls) (N.to_nat r) (2 * (n / 2 ^ (r + 1)))) (nh H (leaf_at (ls ++ [h])) (N.to_nat r) (n / 2 ^ r)) =
      nh H (leaf_at (ls ++ [h])) (N.to_nat (r + 1)) (n / 2 ^ (r + 1))).
    { symmetry. rewrite <- Hls. apply (nh_new ls h r q'). by rewrite Hls. }
    rewrite Hph.
    destruct (F_MergeRoot_ok f n next B r q' (nh H (leaf_at (ls ++ [h])) (N.to_nat (r + 1)) (n / 2 ^ (r + 1))) rs a b)
      as (f1 & E1 & Hfn1 & Hrs1 & Hpm1 & Hsz1 & Hcap1 & HGn & HGo); [lia|done|done|lia|done|lia|done|].
    rewrite E1. cbn [bind]. rewrite Hrs1, vec_back_snoc. cbn [bind rn_hash rn_pos].
    destruct (IH (r + 1) q' f1 (B + 1)) as (f' & t & qt & E & Hqt & Hbt & Hfn' & Hcap' & Hold' & Hnew' & Hroots' & Hpm' & Hsz');
      [lia|done|done|done|lia| | | |].
    { intros r' i Hi. rewrite HGo; [by apply Hold| |].
      - apply (node_len f next B n r' i); [done|lia|done].
      - destruct (N.eq_dec (N.of_nat r') (r + 1)) as [E|]; [|by left]. right. rewrite E in Hi. apply node_iff in Hi. lia. }
    { intros r' Hr'. destruct (N.eq_dec (N.of_nat r') (r + 1)) as [E|Hne].
      - replace r' with (N.to_nat (r + 1)) by lia. rewrite N2Nat.id. done.
      - rewrite HGo; [apply Hnew; lia| |by left].
        apply (node_len f next B next r'); [done|lia|]. 
        assert (Hqr : n + 1 = q * 2 ^ (r - N.of_nat r') * 2 ^ N.of_nat r').
        { rewrite <- N.mul_assoc, <- N.pow_add_r. replace (r - N.of_nat r' + N.of_nat r') with r by lia. done. }
        by eapply ones_node. }
    { unfold F_Roots. rewrite Hrs1, fmap_app, <- Ers. done. }
    fold (last_index (size (rr (r + 1) K n))). rewrite E. exists f', t, qt. split; [done|]. replace (B + N.of_nat (S fuel)) with (B + 1 + N.of_nat fuel) by lia.
    split; [done|]. split; [done|]. split; [done|]. split; [done|]. split; [done|]. split; [done|]. split; [done|].
    split; [by rewrite Hpm'|]. by rewrite Hsz'.
  - exists f, r, q. split; [done|]. split; [done|]. split; [done|]. split; [done|]. split.
    { intros x. destruct (Hcap x) as (H1 & H2 & H3). split; [done|]. split; [done|]. intros Hx. specialize (H3 Hx). lia. }
    done.
Qed.

(** ** One leaf *)
Lemma fix_positions rs p0 p1 : 2 <= size rs ->
  exists rs', (let* r1 := vec_get rs 1 in
    let* rs1 := vec_set rs 1 (RNode (rn_hash r1) (rn_nl r1) p1) in
    let* r0 := vec_get rs1 0 in
    let* rs2 := vec_set rs1 0 (RNode (rn_hash r0) (rn_nl r0) p0) in Ok rs2) = Ok rs' /\ rn_hash <$> rs' = rn_hash <$> rs.
Proof.
  intros Hs. destruct rs as [|a [|b rs]]; [cbn in Hs; lia|cbn in Hs; lia|]. 
  unfold vec_get, vec_set. change (N.to_nat 1) with 1%nat. change (N.to_nat 0) with 0%nat. cbn [lookup list_lookup bind].
  destruct (N.ltb_spec 1 (size (a :: b :: rs))); [|lia]. cbn [bind insert list_insert lookup list_lookup].
  destruct (N.ltb_spec 0 (size (a :: RNode (rn_hash b) (rn_nl b) p1 :: rs))); [|unfold size in *; cbn [length] in *; lia].
  cbn [bind]. eexists. split; [done|]. done.
Qed.

Lemma carry n t q : n + 1 = q * 2 ^ t -> N.testbit n t = false ->
  exists s, q = 2 * s + 1 /\ n / 2 ^ t = 2 * s /\ forall x, t < x -> (n + 1) / 2 ^ x = n / 2 ^ x.
Proof.
  intros Hq Hb. destruct (ones_step n t q Hq) as (Hd & _ & Hs). destruct (Hs Hb) as [s ->]. exists s.
  split; [done|]. split; [lia|]. intros x Hx. replace x with (t + 1 + (x - (t + 1))) by lia.
  pose proof (pow_pos t). pose proof (pow_pos (x - (t + 1))).
  rewrite N.pow_add_r, <- !N.div_div by (rewrite ?pow_S; lia). f_equal. rewrite !div_pow_S, Hd, Hq, N.div_mul by lia. clear. dlia.
Qed.

Definition core (f : forest) (ls : list hash) (next B : N) : Prop :=
  f_n f = size ls /\ cap f next B /\
  (forall r i, node (size ls) (N.of_nat r) i -> G f r i = nh H (leaf_at ls) r i) /\ F_Roots f = spec_roots H ls.

Lemma spec_roots_add ls h t q : size ls + 1 = q * 2 ^ t -> N.testbit (size ls) t = false ->
  spec_roots H (ls ++ [h]) =
  hroots ls (rr t (N.to_nat (NumRows (size ls + 1))) (size ls)) ++ [nh H (leaf_at (ls ++ [h])) (N.to_nat t) (size ls / 2 ^ t)].
Proof.
  intros Hq Hb. destruct (carry _ _ _ Hq Hb) as (s & Es & Hd & Hx). remember (size ls) as n eqn:En.
  assert (Hsz : size (ls ++ [h]) = n + 1) by (rewrite En; unfold size; rewrite app_length; cbn [length]; lia).
  unfold spec_roots, trees. rewrite Hsz. remember (N.to_nat (NumRows (n + 1))) as K eqn:EK.
  rewrite <- (rr_0 K (n + 1)), (rr_low t q K (n + 1) Hq), (rr_S t K (n + 1)), (rr_S t K n), Hb. rewrite app_nil_r.
  assert (HtK : t <= N.of_nat K).
  { pose proof (ones_node n (n + 1) t q Hq ltac:(lia)) as Ht%node_row. lia. }
  assert (Hbt : N.testbit (n + 1) t = true).
  { rewrite testbit_mod, Hq, N.div_mul by (pose proof (pow_pos t); lia). subst q. clear. dlia. }
  rewrite Hbt. destruct (N.leb_spec t (N.of_nat K)); [|lia]. cbn [andb].
  assert (Hext : rr (t + 1) K (n + 1) = rr (t + 1) K n).
  { apply rr_ext. intros x Hx'. by rewrite !testbit_mod, Hx by lia. }
  rewrite Hext, !fmap_app. f_equal.
  - rewrite <- !list_fmap_compose. apply list_fmap_ext. intros k x Hk%elem_of_list_lookup_2. unfold compose, root_at. cbn [fst snd].
    unfold rr in Hk. apply elem_of_list_filter in Hk as [Hle [_ Hk]%root_rows_elem].
    rewrite Hx by lia. apply nh_app1. rewrite N2Nat.id, <- En.
    assert (Hr : is_root n x (2 * (n / 2 ^ (x + 1)))) by (by apply is_root_iff). by destruct Hr.
  - cbn [fmap list_fmap root_at fst snd]. f_equal. f_equal. rewrite div_pow_S, Hq, N.div_mul by (pose proof (pow_pos t); lia).
    subst q. rewrite Hd. clear. dlia.
Qed.

Lemma F_add_leaf_ok f ls next B h m : core f ls next B -> size ls + 1 <= next -> next <= 2 ^ 62 -> B + 65 < two64 ->
  exists f', F_add_leaf H f (h, m) = Ok f' /\ core f' (ls ++ [h]) next (B + 65) /\
    f_posmap f' = <[h := size ls]> (f_posmap f) /\ size (f_data f') = size (f_data f).
Proof.
  intros (Hfn & Hcap & Hold & Hroots) Hnext Hn62 HB. remember (size ls) as n eqn:En.
  assert (Hsz : size (ls ++ [h]) = n + 1) by (rewrite En; unfold size; rewrite app_length; cbn [length]; lia).
  unfold F_add_leaf. rewrite Hfn.
  destruct (Hcap 0%nat) as (Hc0 & _). change (2 ^ N.of_nat 0) with 1 in Hc0. rewrite N.div_1_r in Hc0.
  pose proof (len_row f 0 n ltac:(lia)) as Hrow0. change (N.of_nat 0) with 0 in Hrow0.
  unfold F_NewLeaf. rewrite vec_get_ok by done. cbn [bind fst]. change (N.to_nat 0) with 0%nat.
  rewrite Hfn. rewrite vec_set_ok by (fold (len f 0); lia). cbn [bind]. rewrite vec_set_ok by done. cbn [bind].
  change (N.to_nat 0) with 0%nat.
  remember (Forest n (<[0%nat:=<[N.to_nat n:=h]> (f_data f !!! 0%nat)]> (f_data f)) (f_roots f ++ [RNode h n n]) (<[h:=n]> (f_posmap f))) as f1 eqn:Ef1.
  assert (HG1 : forall r i, G f1 r i = if decide (r = 0%nat /\ i = n) then h else G f r i).
  { intros r i. rewrite <- (G_setcell f 0 n h) by lia. by rewrite Ef1. }
  assert (Hl1 : forall r, len f1 r = len f r).
  { intros r. rewrite <- (len_setcell f 0 n h). by rewrite Ef1. }
  remember (N.to_nat (NumRows (n + 1))) as K eqn:EK.
  assert (Hrr : rr 0 K n = root_rows (N.to_nat (NumRows n)) n).
  { rewrite rr_0. apply root_rows_trim. pose proof (NumRows_mono n (n + 1) ltac:(lia)). lia. }
  assert (Hsr : size (f_roots f) = size (rr 0 K n)).
  { unfold size. rewrite <- (fmap_length rn_hash), Hrr. unfold F_Roots in Hroots. rewrite Hroots. unfold spec_roots, trees.
    rewrite <- En, !fmap_length. done. }
  rewrite Hsr. fold (last_index (size (rr 0 K n))).
  destruct (add_merge_ok ls h next K n 65 ltac:(done) ltac:(lia) Hn62 ltac:(lia) 0 (n + 1) f1 B)
    as (f2 & t & q & E2 & Hq & Hbt & Hfn2 & Hcap2 & Hold2 & Hnew2 & Hroots2 & Hpm2 & Hsz2).
  { done. }
  { by rewrite N.mul_1_r. }
  { by rewrite Ef1. }
  { intros r. rewrite Hl1. apply Hcap. }
  { done. }
  { intros r i Hi. rewrite HG1. rewrite decide_False; [by apply Hold|]. intros [-> ->]. unfold node in Hi.
    change (2 ^ N.of_nat 0) with 1 in Hi. lia. }
  { intros r' Hr'. assert (r' = 0%nat) as -> by lia. change (2 ^ N.of_nat 0) with 1. rewrite N.div_1_r, HG1, decide_True by done.
    cbn [nh]. replace n with (size ls + 0) by lia. by rewrite leaf_at_app2. }
  { unfold F_Roots. rewrite Ef1. cbn [f_roots]. rewrite fmap_app. f_equal.
    - unfold F_Roots in Hroots. rewrite Hroots, Hrr. unfold spec_roots, trees. by rewrite <- En.
    - cbn [fmap list_fmap rn_hash]. f_equal. change (2 ^ 0) with 1. rewrite N.div_1_r. change (N.to_nat 0) with 0%nat. cbn [nh].
      replace n with (size ls + 0) by lia. by rewrite leaf_at_app2. }
  assert (Enh : nh H (leaf_at (ls ++ [h])) (N.to_nat 0) (n / 2 ^ 0) = h).
  { change (2 ^ 0) with 1. rewrite N.div_1_r. change (N.to_nat 0) with 0%nat. cbn [nh].
    replace n with (size ls + 0) by lia. by rewrite leaf_at_app2. }
  assert (Enp : npos n 0 = n).
  { unfold npos. destruct (N.eqb_spec n 1) as [->|]; [done|]. change (2 ^ 0) with 1. rewrite N.div_1_r. apply enc_0. }
  rewrite Enh, Enp in E2. rewrite E2. cbn [bind]. rewrite Hfn2.
  assert (Hadd : add64 n 1 = n + 1) by (apply add64_small; assert (2 ^ 62 < two64) by done; lia). rewrite Hadd.
  remember (set_n f2 (n + 1)) as f3 eqn:Ef3.
  assert (Hfn3 : f_n f3 = n + 1) by (by rewrite Ef3). rewrite Hfn3.
  assert (Hcore : core f3 (ls ++ [h]) next (B + 65)).
  { split; [by rewrite Hsz|]. split; [by rewrite Ef3|]. rewrite Hsz. split.
    - intros r i Hi. replace (G f3 r i) with (G f2 r i) by (by rewrite Ef3).
      destruct (N.le_gt_cases ((i + 1) * 2 ^ N.of_nat r) n) as [Hle|Hgt].
      + rewrite Hold2 by done. symmetry. apply nh_app1. by rewrite <- En.
      + unfold node in Hi. assert (Ei : n + 1 = (i + 1) * 2 ^ N.of_nat r) by lia.
        destruct (ones_step _ _ _ Ei) as [Ed _]. replace i with (n / 2 ^ N.of_nat r) by lia. apply Hnew2.
        destruct (carry _ _ _ Hq Hbt) as (s & Es & _). apply N.nlt_ge. intros Hlt.
        replace (N.of_nat r) with (t + 1 + (N.of_nat r - (t + 1))) in Ei by lia. rewrite N.pow_add_r, pow_S in Ei.
        rewrite Hq in Ei. subst q. pose proof (pow_pos t) as HP. revert Ei HP.
        generalize (2 ^ t) (2 ^ (N.of_nat r - (t + 1))). clear. intros P Q E HP.
        assert (2 * s + 1 = 2 * ((i + 1) * Q)) by (apply (N.mul_cancel_r _ _ P); [lia|rewrite E; lia]). lia.
    - replace (F_Roots f3) with (F_Roots f2) by (by rewrite Ef3). rewrite Hroots2. subst n K. symmetry. by eapply spec_roots_add. }
  assert (Hpm3 : f_posmap f3 = <[h:=n]> (f_posmap f)) by (rewrite Ef3; cbn [f_posmap set_n]; rewrite Hpm2, Ef1; done).
  assert (Hsz3 : size (f_data f3) = size (f_data f)).
  { rewrite Ef3. cbn [f_data set_n]. rewrite Hsz2, Ef1. cbn [f_data]. apply size_insert. }
  clear Ef3 Hfn2 Hcap2 Hold2 Hnew2 Hroots2 Hpm2 Hsz2 E2 f2.
  destruct ((NumRows n =? 0) || (NumRows n =? NumRows (n + 1))) eqn:Ec; [by exists f3|].
  apply orb_false_iff in Ec as [Ec1%N.eqb_neq Ec2%N.eqb_neq].
  pose proof (NumRows_mono n (n + 1) ltac:(lia)) as Hmono. pose proof (NumRows_bound n) as Hb.
  assert (Hgt : NumRows n < NumRows (n + 1)) by lia. apply NumRows_gt in Hgt. assert (En2 : n = 2 ^ NumRows n) by lia.
  assert (Htwo : 2 <= size (f_roots f3)).
  { destruct Hcore as (_ & _ & _ & Hr3). unfold size. rewrite <- (fmap_length rn_hash). unfold F_Roots in Hr3. rewrite Hr3.
    unfold spec_roots, trees. rewrite Hsz, !fmap_length.
    assert (H1 : NumRows n ∈ root_rows (N.to_nat (NumRows (n + 1))) (n + 1)).
    { apply root_rows_elem. split; [lia|]. rewrite testbit_mod. rewrite En2 at 1.
      rewrite N.add_comm. rewrite <- (N.mul_1_l (2 ^ NumRows n)) at 1. rewrite N.div_add by (pose proof (pow_pos (NumRows n)); lia).
      rewrite N.div_small; [done|]. replace (NumRows n) with (NumRows n - 1 + 1) by lia. rewrite pow_S. pose proof (pow_pos (NumRows n - 1)). lia. }
    assert (H2 : 0 ∈ root_rows (N.to_nat (NumRows (n + 1))) (n + 1)).
    { apply root_rows_elem. split; [lia|]. rewrite testbit_mod. change (2 ^ 0) with 1. rewrite N.div_1_r, En2.
      replace (NumRows n) with (NumRows n - 1 + 1) by lia. rewrite pow_S. generalize (2 ^ (NumRows n - 1)). clear. intros P. dlia. }
    destruct (root_rows _ (n + 1)) as [|x [|y l]]; [by apply elem_of_nil in H1| |cbn [length]; lia].
    apply elem_of_list_singleton in H1, H2. lia. }
  unfold assert_. destruct (N.leb_spec 2 (size (f_roots f3))); [|lia]. cbn [bind].
  assert (Hn1 : n + 1 <= 2 ^ 62) by lia.
  rewrite (RootPosition_ok (n + 1) Hn1 0) by lia. cbn [bind].
  rewrite (RootPosition_ok (n + 1) Hn1 (NumRows (n + 1) - 1)) by lia. cbn [bind].
  destruct (fix_positions (f_roots f3) (enc (NumRows (n + 1)) (NumRows (n + 1) - 1) (2 * ((n + 1) / 2 ^ (NumRows (n + 1) - 1 + 1))))
    (enc (NumRows (n + 1)) 0 (2 * ((n + 1) / 2 ^ (0 + 1)))) Htwo) as (rs' & E & Hh).
  exists (set_roots f3 rs'). split; [|split; [|done]].
  - destruct (vec_get (f_roots f3) 1); cbn [bind] in E |- *; try done.
    destruct (vec_set (f_roots f3) 1 _); cbn [bind] in E |- *; try done.
    destruct (vec_get _ 0); cbn [bind] in E |- *; try done.
    destruct (vec_set _ 0 _); cbn [bind] in E |- *; try done. congruence.
  - destruct Hcore as (C1 & C2 & C3 & C4). split; [done|]. split; [done|]. split; [done|].
    unfold F_Roots in *. cbn [f_roots set_roots]. by rewrite Hh.
Qed.
End Add.

(** ** The position map *)
Definition pm_inv (m : gmap N N) (ls : list hash) : Prop := forall h p, m !! h = Some p <-> ls !! N.to_nat p = Some h.
Fixpoint add_pos (m : gmap N N) (n : N) (hs : list hash) : gmap N N :=
  match hs with [] => m | h :: hs' => add_pos (<[h := n]> m) (n + 1) hs' end.

Lemma leaf_at_lookup ls p h : p < size ls /\ leaf_at ls p = h <-> ls !! N.to_nat p = Some h.
Proof.
  unfold leaf_at, size. split.
  - intros [Hp <-]. apply list_lookup_lookup_total_lt. lia.
  - intros Hl. split; [apply lookup_lt_Some in Hl; lia|]. by apply list_lookup_total_correct.
Qed.
Lemma posmap_pm f ls : (forall i, i < size ls -> G f 0 i = leaf_at ls i) -> posmap_inv f (size ls) <-> pm_inv (f_posmap f) ls.
Proof.
  intros HG. unfold posmap_inv, pm_inv. split; intros Hp h p; rewrite (Hp h p), <- leaf_at_lookup; split; intros [Hlt E];
    (split; [done|]); specialize (HG p Hlt); congruence.
Qed.
Lemma pm_NoDup m ls : pm_inv m ls -> NoDup ls.
Proof.
  intros Hp. apply NoDup_alt. intros i j x Hi Hj. assert (E1 := proj2 (Hp x (N.of_nat i))). assert (E2 := proj2 (Hp x (N.of_nat j))).
  rewrite Nat2N.id in E1, E2. specialize (E1 Hi). specialize (E2 Hj). rewrite E1 in E2. injection E2 as E2. lia.
Qed.
Lemma pm_snoc m ls h : pm_inv m ls -> h ∉ ls -> pm_inv (<[h := size ls]> m) (ls ++ [h]).
Proof.
  intros Hp Hh x p. destruct (decide (x = h)) as [->|Hne].
  - rewrite lookup_insert. split.
    + intros [= <-]. unfold size. rewrite Nat2N.id. by apply list_lookup_middle.
    + rewrite lookup_app. destruct (ls !! N.to_nat p) as [y|] eqn:E.
      * intros [= ->]. destruct Hh. by eapply elem_of_list_lookup_2.
      * apply lookup_ge_None in E. intros Hl. apply list_lookup_singleton_Some in Hl as [Hl _]. unfold size. f_equal. lia.
  - rewrite lookup_insert_ne by done. rewrite (Hp x p), lookup_app. split.
    + by intros ->.
    + destruct (ls !! N.to_nat p) as [y|] eqn:E; [done|]. intros Hl. apply list_lookup_singleton_Some in Hl as [_ Hl]. congruence.
Qed.
Lemma pm_add hs : forall m ls, pm_inv m ls -> NoDup (ls ++ hs) -> pm_inv (add_pos m (size ls) hs) (ls ++ hs).
Proof.
  induction hs as [|h hs IH]; intros m ls Hp Hnd; cbn [add_pos]; [by rewrite app_nil_r|].
  assert (Hh : h ∉ ls). { intros Hin. apply NoDup_app in Hnd as (_ & Hx & _). apply (Hx h Hin). left. }
  specialize (IH (<[h:=size ls]> m) (ls ++ [h]) (pm_snoc _ _ _ Hp Hh)).
  rewrite <- app_assoc in IH. specialize (IH Hnd). unfold size in *. rewrite app_length in IH. cbn [length] in IH.
  by replace (N.of_nat (length ls + 1)) with (N.of_nat (length ls) + 1) in IH by lia.
Qed.
Lemma dom_add hs : forall m n, dom (add_pos m n hs) = dom m ∪ (list_to_set hs : gset N).
Proof.
  induction hs as [|h hs IH]; intros m n; cbn [add_pos list_to_set]; [set_solver|]. rewrite IH, dom_insert_L. set_solver.
Qed.
Lemma pm_dom m ls : pm_inv m ls -> dom m = (list_to_set ls : gset N).
Proof.
  intros Hp. apply set_eq. intros h. rewrite elem_of_dom, elem_of_list_to_set. split.
  - intros [p Hl%Hp]. by eapply elem_of_list_lookup_2.
  - intros [i Hi]%elem_of_list_lookup. exists (N.of_nat i). apply Hp. by rewrite Nat2N.id.
Qed.
Lemma size_set_NoDup (l : list N) : base.size (list_to_set l : gset N) = length l -> NoDup l.
Proof.
  assert (Hle : forall l : list N, (base.size (list_to_set l : gset N) <= length l)%nat).
  { clear. induction l as [|x l IH]; [done|]. cbn [list_to_set length]. rewrite size_union_alt.
    assert (base.size ((list_to_set l : gset N) ∖ {[x]}) <= base.size (list_to_set l : gset N))%nat by (apply subseteq_size; set_solver).
    rewrite size_singleton. lia. }
  induction l as [|x l IH]; intros Hs; [constructor|]. cbn [list_to_set length] in Hs. specialize (Hle l).
  destruct (decide (x ∈ l)) as [Hin|Hin].
  - replace ({[x]} ∪ list_to_set l) with (list_to_set l : gset N) in Hs by set_solver. lia.
  - constructor; [done|]. apply IH. rewrite size_union in Hs by set_solver. rewrite size_singleton in Hs. lia.
Qed.

(** ** Add *)
Section AddAll.
Context (H : hash -> hash -> hash).

Lemma add_leaves_ok hs : forall f ls next B, core H f ls next B -> size ls + size hs <= next -> next <= 2 ^ 62 ->
  B + 65 * size hs < two64 ->
  exists f', foldM (F_add_leaf H) f hs = Ok f' /\ core H f' (ls ++ hs.*1) next (B + 65 * size hs) /\
    f_posmap f' = add_pos (f_posmap f) (size ls) hs.*1 /\ size (f_data f') = size (f_data f).
Proof.
  induction hs as [|[h m] hs IH]; intros f ls next B Hc Hn Hn62 HB.
  - exists f. cbn [foldM fmap list_fmap add_pos]. rewrite app_nil_r. change (size []) with 0. rewrite N.mul_0_r, N.add_0_r. done.
  - unfold leaf in *. assert (Es : size ((h, m) :: hs) = size hs + 1) by (unfold size; cbn [length]; lia). rewrite Es in *.
    destruct (F_add_leaf_ok H f ls next B h m Hc ltac:(lia) Hn62 ltac:(lia)) as (f1 & E1 & Hc1 & Hp1 & Hs1).
    assert (El : size (ls ++ [h]) = size ls + 1) by (unfold size; rewrite app_length; cbn [length]; lia).
    destruct (IH f1 (ls ++ [h]) next (B + 65) Hc1 ltac:(lia) Hn62 ltac:(lia)) as (f2 & E2 & Hc2 & Hp2 & Hs2).
    cbn [foldM]. rewrite E1. cbn [bind]. rewrite E2. exists f2. split; [done|]. rewrite fmap_cons. cbn [fst add_pos].
    split; [|split].
    + rewrite <- app_assoc in Hc2. replace (B + 65 * (size hs + 1)) with (B + 65 + 65 * size hs) by lia. done.
    + by rewrite Hp2, Hp1, El.
    + by rewrite Hs2.
Qed.

Lemma F_Add_ok f ls hs : inv H f ls -> size ls + size hs <= 2 ^ 31 ->
  (NoDup (ls ++ hs.*1) /\ exists f', F_Add H f hs = Ok f' /\ inv H f' (ls ++ hs.*1) /\ size (f_data f) <= size (f_data f')) \/
  (~ NoDup (ls ++ hs.*1) /\ F_Add H f hs = Abort).
Proof.
  unfold leaf in *. intros [Hw Hnode Hp Hr Hrows] Hb. remember (size ls) as n eqn:En. pose proof Hw as [Hfn Hlen].
  assert (H31 : 2 ^ 31 = 2147483648) by done. assert (H62 : 2 ^ 31 <= 2 ^ 62) by done. assert (H64 : two64 = 8589934592 * 2147483648) by done.
  unfold F_Add. unfold leaf in *. rewrite Hfn. rewrite add64_small by lia. remember (n + size hs) as next eqn:Enext.
  pose proof (NumRows_le next 31) as H31'. assert (HR : NumRows next <= 31) by (apply H31'; lia).
  destruct (resize_ok next (f_data f) (NumRows next + 1) ltac:(lia)) as (d & Ed & Hsd & Hd). rewrite Ed. cbn [bind].
  unfold assert_ at 1. destruct (N.ltb_spec (NumRows next) (size d)); [|lia]. cbn [bind].
  assert (Hlend : forall r, len (set_data f d) r = if N.of_nat r <? NumRows next + 1 then next / 2 ^ N.of_nat r else len f r).
  { intros r. unfold len. cbn [f_data set_data]. rewrite Hd. destruct (N.ltb_spec (N.of_nat r) (NumRows next + 1)); [|done]. apply vec_resize_size. }
  assert (Hcore : core H (set_data f d) ls next next).
  { split; [cbn [f_n set_data]; congruence|]. split; [|split; [|done]].
    - intros r. rewrite Hlend. specialize (Hlen r). pose proof (pow_pos (N.of_nat r)) as HP.
      destruct (N.ltb_spec (N.of_nat r) (NumRows next + 1)).
      + assert (next / 2 ^ N.of_nat r <= next) by (apply N.div_le_upper_bound; [lia|]; nia). lia.
      + split; [|split; [lia|lia]]. rewrite N.div_small; [lia|]. pose proof (NumRows_bound next).
        assert (2 ^ NumRows next < 2 ^ N.of_nat r) by (apply N.pow_lt_mono_r; lia). lia.
    - intros r i Hi. rewrite <- En in Hi. rewrite <- Hnode by done. unfold G. cbn [f_data set_data]. rewrite Hd.
      destruct (N.ltb_spec (N.of_nat r) (NumRows next + 1)); [|done]. apply vec_resize_total; rewrite N2Nat.id.
      + apply node_iff. unfold node in *. lia.
      + eapply (wide_node f n r); done. }
  destruct (add_leaves_ok hs (set_data f d) ls next next Hcore) as (f' & E & Hc' & Hp' & Hs'); [unfold leaf; lia|lia|unfold leaf; lia|].
  unfold leaf in *.   rewrite E. cbn [bind]. destruct Hc' as (Hfn' & Hcap' & Hnode' & Hr').
  assert (Hsz : size (ls ++ hs.*1) = next) by (unfold size in *; rewrite app_length, fmap_length; lia).
  rewrite Hfn', Hsz. unfold assert_ at 1. rewrite N.eqb_refl. cbn [bind].
  assert (Hpm : pm_inv (f_posmap f) ls).
  { apply posmap_pm; [|by rewrite <- En]. intros i Hi. rewrite Hnode; [done|]. unfold node. change (2 ^ N.of_nat 0) with 1. lia. }
  change (f_posmap (set_data f d)) with (f_posmap f) in Hp'.
  destruct (decide (NoDup (ls ++ hs.*1))) as [Hnd|Hnd]; [left|right]; (split; [done|]).
  - assert (Hpm' : pm_inv (f_posmap f') (ls ++ hs.*1)) by (rewrite Hp'; by apply pm_add).
    assert (Hpi : posmap_inv f' next).
    { rewrite <- Hsz. apply posmap_pm; [|done]. intros i Hi. rewrite Hnode'; [done|]. unfold node. change (2 ^ N.of_nat 0) with 1. lia. }
    rewrite (posmap_size _ _ Hpi), N.eqb_refl. cbn [assert_ bind]. exists f'. split; [done|].
    split; [|rewrite Hs'; cbn [f_data set_data]; lia].
    split; [|done| |done|]; rewrite ?Hsz in *; try done.
    + split; [done|]. intros r. destruct (Hcap' r) as (H1 & H2 & _). done.
    + rewrite Hs'. cbn [f_data set_data]. lia.
  - destruct (N.eqb_spec (N.of_nat (base.size (f_posmap f'))) next) as [Es|]; [|done]. exfalso. apply Hnd.
    apply size_set_NoDup. rewrite <- size_dom, Hp', dom_add, (pm_dom _ _ Hpm) in Es.
    rewrite list_to_set_app_L. unfold size in Hsz. lia.
Qed.
End AddAll.
