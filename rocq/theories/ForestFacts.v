(** * ForestFacts: the cells of RamForest (proofs) *)
From Verif Require Import Base StateModel CodecModel ForestModel PosSpec PosFacts PathFacts MerkleSpec.
From Coq Require Import ZifyBool ZifyNat ZifyN.
Ltac Zify.zify_post_hook ::= idtac.

(** ** Vectors *)
Lemma int_loop_ok k : k <= int_max -> int_loop k = Ok tt.
Proof. intros Hk. unfold int_loop. by destruct (N.ltb_spec int_max k); [lia|]. Qed.

Lemma lookup_lt_total {A} `{Inhabited A} (l : list A) i :
  N.of_nat i < size l -> l !! i = Some (l !!! i).
Proof. unfold size. intros Hi. apply list_lookup_lookup_total_lt. lia. Qed.

Lemma vec_at_ok {A} `{Inhabited A} (l : list A) i : i < size l -> vec_at l i = Ok (l !!! N.to_nat i).
Proof. intros Hi. unfold vec_at. rewrite lookup_lt_total; [done|]. by rewrite N2Nat.id. Qed.
Lemma vec_get_ok {A} `{Inhabited A} (l : list A) i : i < size l -> vec_get l i = Ok (l !!! N.to_nat i).
Proof. intros Hi. unfold vec_get. rewrite lookup_lt_total; [done|]. by rewrite N2Nat.id. Qed.
Lemma vec_set_ok {A} (l : list A) i x : i < size l -> vec_set l i x = Ok (<[N.to_nat i := x]> l).
Proof. intros Hi. unfold vec_set. destruct (N.ltb_spec i (size l)); [done|lia]. Qed.
Lemma size_insert {A} (l : list A) i x : size (<[i := x]> l) = size l.
Proof. unfold size. by rewrite insert_length. Qed.
Lemma insert_total {A} `{Inhabited A} (l : list A) i j x : N.of_nat i < size l ->
  <[i := x]> l !!! j = if decide (j = i) then x else l !!! j.
Proof.
  unfold size. intros Hi. destruct (decide (j = i)) as [->|Hj].
  - apply list_lookup_total_insert. lia.
  - by apply list_lookup_total_insert_ne.
Qed.
Lemma lookup_total_ge {A} `{Inhabited A} (l : list A) i : (length l <= i)%nat -> l !!! i = inhabitant.
Proof. intros Hi. rewrite list_lookup_total_alt, lookup_ge_None_2 by done. done. Qed.
Lemma total_ext {A} `{Inhabited A} (l l' : list A) : length l = length l' ->
  (forall i, (i < length l)%nat -> l !!! i = l' !!! i) -> l = l'.
Proof.
  intros Hl Ht. apply list_eq. intros i. destruct (decide (i < length l)%nat) as [Hi|Hi].
  - rewrite !list_lookup_lookup_total_lt by lia. f_equal. by apply Ht.
  - rewrite !lookup_ge_None_2 by lia. done.
Qed.

Lemma nseq_length a k : length (nseq a k) = N.to_nat k.
Proof. unfold nseq. by rewrite fmap_length, seq_length. Qed.
Lemma nseq_0 a : nseq a 0 = [].
Proof. done. Qed.
Lemma nseq_snoc a k : nseq a (k + 1) = nseq a k ++ [a + k].
Proof.
  unfold nseq. replace (N.to_nat (k + 1)) with (S (N.to_nat k)) by lia.
  rewrite seq_S, fmap_app. cbn [fmap list_fmap Nat.add]. rewrite N2Nat.id. done.
Qed.
Lemma nseq_cons a k : nseq a (k + 1) = a :: nseq (a + 1) k.
Proof.
  unfold nseq. replace (N.to_nat (k + 1)) with (S (N.to_nat k)) by lia.
  cbn [seq fmap list_fmap]. f_equal; [lia|]. rewrite <- seq_shift, <- list_fmap_compose.
  apply list_fmap_ext. intros i x _. unfold compose. lia.
Qed.
Lemma nseq_elem a k x : x ∈ nseq a k <-> a <= x < a + k.
Proof.
  unfold nseq. rewrite elem_of_list_fmap. split.
  - intros (y & -> & Hy%elem_of_seq). lia.
  - intros Hx. exists (N.to_nat (x - a)). split; [lia|]. apply elem_of_seq. lia.
Qed.
Lemma nseq_NoDup a k : NoDup (nseq a k).
Proof. unfold nseq. apply NoDup_fmap; [intros x y ?; lia|]. apply NoDup_ListNoDup, seq_NoDup. Qed.
Lemma nseq_lookup a k i : (i < N.to_nat k)%nat -> nseq a k !! i = Some (a + N.of_nat i).
Proof. intros Hi. unfold nseq. rewrite list_lookup_fmap, lookup_seq_lt by done. done. Qed.

Lemma N_ind1 (P : N -> Prop) : P 0 -> (forall k, P k -> P (k + 1)) -> forall k, P k.
Proof. intros H0 HS. apply N.peano_ind; [done|]. intros k. rewrite <- N.add_1_r. apply HS. Qed.

Lemma foldM_app {A S} (f : S -> A -> res S) s l1 l2 :
  foldM f s (l1 ++ l2) = bind (foldM f s l1) (fun s' => foldM f s' l2).
Proof.
  revert s. induction l1 as [|x l1 IH]; intros s; cbn [foldM app bind]; [done|].
  destruct (f s x); cbn [bind]; [apply IH|done..].
Qed.
Lemma mapM_ok {A B} (f : A -> res B) (g : A -> B) l :
  (forall x, x ∈ l -> f x = Ok (g x)) -> mapM_ f l = Ok (g <$> l).
Proof.
  induction l as [|x l IH]; intros Hf; cbn [mapM_ fmap list_fmap]; [done|].
  rewrite Hf by (by left). cbn [bind]. rewrite IH; [done|]. intros y Hy. apply Hf. by right.
Qed.

(** ** Cells *)
Definition G (f : forest) (r : nat) (i : N) : hash := (f_data f !!! r) !!! N.to_nat i.
Definition len (f : forest) (r : nat) : N := size (f_data f !!! r).

Lemma len_row f r i : i < len f r -> N.of_nat r < size (f_data f).
Proof.
  unfold len, size. intros Hi. destruct (decide (r < length (f_data f))%nat) as [?|Hr]; [lia|].
  rewrite lookup_total_ge in Hi by lia. cbn in Hi. lia.
Qed.

Lemma enc_off R r i : slot R r i -> R <= 62 -> sub64 (enc R r i) (enc R r 0) = i.
Proof.
  intros Hs HR. pose proof (enc_lt _ _ _ Hs). pose proof (pow_R_64 (R + 1) ltac:(lia)).
  rewrite sub64_small; unfold enc in *; lia.
Qed.

Lemma F_ReadState_ok f n r i : n <= 2 ^ 62 -> slot (NumRows n) (N.of_nat r) i -> i < len f r ->
  F_ReadState f n (enc (NumRows n) (N.of_nat r) i) = Ok (G f r i).
Proof.
  intros Hn Hs Hi. unfold F_ReadState. rewrite DetectRow_ok by done. cbn [bind].
  rewrite RowOffset_ok by done. cbn [bind]. rewrite enc_off; [|done|by apply R62].
  pose proof (len_row _ _ _ Hi) as Hr. unfold assert_. destruct (N.ltb_spec (N.of_nat r) (size (f_data f))); [|lia].
  cbn [bind]. rewrite vec_at_ok by done. cbn [bind]. rewrite Nat2N.id.
  unfold len in Hi. destruct (N.ltb_spec i (size (f_data f !!! r))); [|lia]. cbn [bind].
  by apply vec_at_ok.
Qed.
Lemma F_Read_ok f r i : f_n f <= 2 ^ 62 -> slot (NumRows (f_n f)) (N.of_nat r) i -> i < len f r ->
  F_Read f (enc (NumRows (f_n f)) (N.of_nat r) i) = Ok (G f r i).
Proof. apply F_ReadState_ok. Qed.

Definition setcell (f : forest) (r : nat) (i : N) (v : hash) : forest :=
  set_data f (<[r := <[N.to_nat i := v]> (f_data f !!! r)]> (f_data f)).
Lemma G_setcell f r i v r' i' : i < len f r ->
  G (setcell f r i v) r' i' = if decide (r' = r /\ i' = i) then v else G f r' i'.
Proof.
  intros Hi. pose proof (len_row _ _ _ Hi). unfold G, setcell. cbn [f_data set_data].
  rewrite insert_total by done. destruct (decide (r' = r)) as [->|]; [|by rewrite decide_False by naive_solver].
  rewrite insert_total by (rewrite N2Nat.id; done).
  destruct (decide (i' = i)) as [->|].
  - by rewrite !decide_True.
  - rewrite !decide_False; [done|naive_solver|lia].
Qed.
Lemma len_setcell f r i v r' : len (setcell f r i v) r' = len f r'.
Proof.
  unfold len, setcell. cbn [f_data set_data]. destruct (decide (r < length (f_data f))%nat) as [Hr|Hr].
  - rewrite insert_total by (unfold size; lia). destruct (decide _) as [->|]; [|done]. by rewrite size_insert.
  - rewrite list_insert_ge by lia. done.
Qed.
Lemma rows_setcell f r i v : size (f_data (setcell f r i v)) = size (f_data f).
Proof. unfold setcell. cbn [f_data set_data]. apply size_insert. Qed.

(** ** Swapping ranges *)
Definition swi (a b k i : N) : N :=
  if (a <=? i) && (i <? a + k) then b + (i - a)
  else if (b <=? i) && (i <? b + k) then a + (i - b) else i.

Lemma swap_elems_ok l a b : a < size l -> b < size l -> a <> b ->
  exists l', swap_elems l a b = Ok l' /\ size l' = size l /\
    forall i, l' !!! N.to_nat i = l !!! N.to_nat (if i =? a then b else if i =? b then a else i).
Proof.
  intros Ha Hb Hab. unfold swap_elems. rewrite !vec_get_ok by done. cbn [bind].
  rewrite vec_set_ok by done. cbn [bind]. rewrite vec_set_ok by (by rewrite size_insert).
  eexists. split; [done|]. split; [by rewrite !size_insert|].
  intros i. rewrite !insert_total by (rewrite ?size_insert, N2Nat.id; done).
  destruct (N.eqb_spec i a), (N.eqb_spec i b); repeat destruct (decide _); subst; try done; lia.
Qed.

Lemma swap_loop_ok l a b k : a + k <= size l -> b + k <= size l -> (a + k <= b \/ b + k <= a) -> size l < two64 ->
  exists l', foldM (fun l i => swap_elems l (add64 a i) (add64 b i)) l (nseq 0 k) = Ok l' /\
    size l' = size l /\ forall i, l' !!! N.to_nat i = l !!! N.to_nat (swi a b k i).
Proof.
  intros Ha Hb Hd Hsz. revert Ha Hb Hd. induction k as [|k IH] using N_ind1; intros Ha Hb Hd.
  - exists l. split; [done|]. split; [done|]. intros i. f_equal. unfold swi.
    destruct (N.leb_spec a i), (N.ltb_spec i (a + 0)), (N.leb_spec b i), (N.ltb_spec i (b + 0)); cbn [andb]; lia.
  - destruct IH as (l1 & E1 & Hs1 & Hl1); [lia|lia|lia|].
    rewrite nseq_snoc, foldM_app, E1. cbn [bind foldM].
    rewrite !add64_small by lia.
    destruct (swap_elems_ok l1 (a + (0 + k)) (b + (0 + k))) as (l2 & E2 & Hs2 & Hl2); [lia|lia|lia|].
    rewrite E2. cbn [bind]. exists l2. split; [done|]. split; [lia|].
    intros i. rewrite Hl2, Hl1. do 2 f_equal. unfold swi.
    repeat match goal with |- context [N.eqb ?x ?y] => destruct (N.eqb_spec x y)
                      | |- context [N.leb ?x ?y] => destruct (N.leb_spec x y)
                      | |- context [N.ltb ?x ?y] => destruct (N.ltb_spec x y) end; cbn [andb]; lia.
Qed.

(** Row [r] of [f'] is row [r] of [f] with indices mapped by [p]. *)
Lemma F_SwapRange_ok f r a b k : f_n f <= 2 ^ 62 ->
  slot (NumRows (f_n f)) (N.of_nat r) a -> slot (NumRows (f_n f)) (N.of_nat r) b -> 0 < k ->
  a + k <= len f r -> b + k <= len f r -> (a + k <= b \/ b + k <= a) -> len f r < two64 ->
  exists f', F_SwapRange f (enc (NumRows (f_n f)) (N.of_nat r) a) (enc (NumRows (f_n f)) (N.of_nat r) b) k = Ok f' /\
    (exists d, f' = set_data f d) /\ size (f_data f') = size (f_data f) /\
    (forall r', len f' r' = len f r') /\
    forall r' i, G f' r' i = G f r' (if decide (r' = r) then swi a b k i else i).
Proof.
  intros Hn Ha Hb Hk Hla Hlb Hd Hlen. unfold F_SwapRange. pose proof (R62 _ Hn) as HR.
  rewrite DetectRow_ok by done. cbn [bind]. rewrite !RowOffset_ok by done. cbn [bind].
  pose proof (len_row f r a ltac:(lia)) as Hrow.
  rewrite vec_at_ok by done. cbn [bind]. rewrite Nat2N.id, !enc_off by done.
  destruct (swap_loop_ok (f_data f !!! r) a b k Hla Hlb Hd Hlen) as (l' & El & Hs & Hl).
  rewrite El. cbn [bind]. rewrite vec_set_ok by done. cbn [bind]. eexists. split; [done|].
  split; [by eexists|]. rewrite Nat2N.id. split; [apply size_insert|]. split.
  - intros r'. unfold len. cbn [f_data set_data]. rewrite insert_total by done.
    destruct (decide _) as [->|]; done.
  - intros r' i. unfold G. cbn [f_data set_data]. rewrite insert_total by done.
    destruct (decide _) as [->|]; [|done]. apply Hl.
Qed.

(** ** Swapping subtrees *)
Definition sw (a b i : N) : N := if i =? a then b else if i =? b then a else i.
(** Index on row [r] after exchanging the subtrees [a] and [b] of row [j]. *)
Definition swt (j : nat) (a b : N) (r : nat) (i : N) : N :=
  if (r <=? j)%nat then
    let P := 2 ^ N.of_nat (j - r) in sw a b (i / P) * P + i mod P
  else i.

Lemma swt_swi j a b r i : (r <= j)%nat -> a <> b ->
  swt j a b r i = swi (a * 2 ^ N.of_nat (j - r)) (b * 2 ^ N.of_nat (j - r)) (2 ^ N.of_nat (j - r)) i.
Proof.
  intros Hr Hab. unfold swt. destruct (Nat.leb_spec r j); [|lia]. cbv zeta.
  pose proof (pow_pos (N.of_nat (j - r))) as HP. generalize dependent (2 ^ N.of_nat (j - r)). intros P HP.
  assert (Hdm := N.div_mod i P ltac:(lia)). assert (Hm := N.mod_lt i P ltac:(lia)).
  remember (i / P) as q. remember (i mod P) as m. clear Heqq Heqm. subst i.
  unfold swi, sw.
  destruct (N.eqb_spec q a) as [->|Hqa]; [|destruct (N.eqb_spec q b) as [->|Hqb]].
  - destruct (N.leb_spec (a * P) (P * a + m)), (N.ltb_spec (P * a + m) (a * P + P)); cbn [andb]; lia.
  - assert (a < b \/ b < a) as [?|?] by lia.
    + assert (P * a + P <= P * b) by nia.
      destruct (N.leb_spec (a * P) (P * b + m)), (N.ltb_spec (P * b + m) (a * P + P)),
        (N.leb_spec (b * P) (P * b + m)), (N.ltb_spec (P * b + m) (b * P + P)); cbn [andb]; lia.
    + assert (P * b + P <= P * a) by nia.
      destruct (N.leb_spec (a * P) (P * b + m)), (N.ltb_spec (P * b + m) (a * P + P)),
        (N.leb_spec (b * P) (P * b + m)), (N.ltb_spec (P * b + m) (b * P + P)); cbn [andb]; lia.
  - assert (P * q + P <= P * a \/ P * a + P <= P * q) by nia.
    assert (P * q + P <= P * b \/ P * b + P <= P * q) by nia.
      destruct (N.leb_spec (a * P) (P * q + m)), (N.ltb_spec (P * q + m) (a * P + P)),
        (N.leb_spec (b * P) (P * q + m)), (N.ltb_spec (P * q + m) (b * P + P)); cbn [andb]; lia.
Qed.

(** [f'] differs from [f] only in the content of the cells. *)
Definition cells_only (f f' : forest) : Prop :=
  (exists d, f' = set_data f d) /\ size (f_data f') = size (f_data f) /\ forall r, len f' r = len f r.
Lemma cells_only_refl f : cells_only f f.
Proof. split; [exists (f_data f); by destruct f|done]. Qed.
Lemma cells_only_trans f1 f2 f3 : cells_only f1 f2 -> cells_only f2 f3 -> cells_only f1 f3.
Proof.
  intros ([d1 ->] & Hs1 & Hl1) ([d2 ->] & Hs2 & Hl2). split; [by exists d2|].
  split; [congruence|]. intros r. rewrite Hl2. apply Hl1.
Qed.
Lemma cells_only_setcell f r i v : cells_only f (setcell f r i v).
Proof. split; [by eexists|]. split; [apply rows_setcell|]. apply len_setcell. Qed.
Lemma cells_only_n f f' : cells_only f f' -> f_n f' = f_n f.
Proof. by intros [[d ->] _]. Qed.
Lemma cells_only_posmap f f' : cells_only f f' -> f_posmap f' = f_posmap f.
Proof. by intros [[d ->] _]. Qed.
Lemma cells_only_roots f f' : cells_only f f' -> f_roots f' = f_roots f.
Proof. by intros [[d ->] _]. Qed.
Lemma cells_only_len f f' r : cells_only f f' -> len f' r = len f r.
Proof. by intros (_ & _ & ?). Qed.
Lemma cells_only_rows f f' : cells_only f f' -> size (f_data f') = size (f_data f).
Proof. by intros (_ & ? & _). Qed.

Lemma slot_down R j a r : slot R (N.of_nat j) a -> (r <= j)%nat ->
  slot R (N.of_nat r) (a * 2 ^ N.of_nat (j - r)).
Proof.
  intros [Hj Ha] Hr. split; [lia|].
  replace (R - N.of_nat r) with ((R - N.of_nat j) + N.of_nat (j - r)) by lia. rewrite N.pow_add_r.
  apply N.mul_lt_mono_pos_r; [apply pow_pos|done].
Qed.

Lemma pow_nat_S k : 2 ^ N.of_nat (S k) = 2 * 2 ^ N.of_nat k.
Proof. rewrite Nat2N.inj_succ, <- N.add_1_r. apply pow_S. Qed.

Lemma swap_subtrees_loop_ok j a b m : forall f r fuel, (r + m)%nat = j -> (m < fuel)%nat ->
  f_n f <= 2 ^ 62 -> slot (NumRows (f_n f)) (N.of_nat j) a -> slot (NumRows (f_n f)) (N.of_nat j) b -> a <> b ->
  (forall r', (r' <= j)%nat -> (a + 1) * 2 ^ N.of_nat (j - r') <= len f r' /\
      (b + 1) * 2 ^ N.of_nat (j - r') <= len f r' /\ len f r' < two64) ->
  let R := NumRows (f_n f) in
  exists f', swap_subtrees_loop fuel f (enc R (N.of_nat r) (a * 2 ^ N.of_nat m)) (enc R (N.of_nat r) (b * 2 ^ N.of_nat m))
               (2 ^ N.of_nat m) = Ok (f', enc R (N.of_nat j + 1) (b / 2)) /\
    cells_only f f' /\
    forall r' i, G f' r' i = G f r' (if (r <=? r')%nat then swt j a b r' i else i).
Proof.
  induction m as [|m IH]; intros f r fuel Hj Hfuel Hn Ha Hb Hab Hlen R; destruct fuel as [|fuel]; try lia.
  - assert (r = j) as -> by lia.
    destruct (Hlen j ltac:(lia)) as (Hl1 & Hl2 & Hl3). rewrite Nat.sub_diag in Hl1, Hl2.
    change (2 ^ N.of_nat 0) with 1 in *. rewrite !N.mul_1_r in *.
    cbn [swap_subtrees_loop]. change (1 =? 0) with false. cbn match.
    destruct (F_SwapRange_ok f j a b 1) as (f' & E & Hd & Hs & Hl & HG); [done|done|done|lia|lia|lia|lia|lia|].
    fold R in E. rewrite E. cbn [bind]. unfold R. rewrite !Parent_ok by done. cbn [bind].
    change (N.shiftr 1 1) with 0.
    destruct fuel; cbn [swap_subtrees_loop]; change (0 =? 0) with true; cbn match;
      (eexists; split; [done|]; split; [done|]; intros r' i; rewrite HG; f_equal;
       destruct (decide (r' = j)) as [->|];
       [rewrite Nat.leb_refl, swt_swi, Nat.sub_diag by done; change (2 ^ N.of_nat 0) with 1; by rewrite !N.mul_1_r
       |destruct (Nat.leb_spec j r'); [|done]; unfold swt; destruct (Nat.leb_spec r' j); [lia|done]]).
  - pose proof (pow_pos (N.of_nat (S m))) as HP. pose proof (pow_pos (N.of_nat m)) as HP'.
    cbn [swap_subtrees_loop].
    destruct (N.eqb_spec (2 ^ N.of_nat (S m)) 0); [lia|].
    pose proof (slot_down _ _ _ r Ha ltac:(lia)) as Hsa. pose proof (slot_down _ _ _ r Hb ltac:(lia)) as Hsb.
    replace (j - r)%nat with (S m) in Hsa, Hsb by lia.
    destruct (Hlen r ltac:(lia)) as (Hl1 & Hl2 & Hl3). replace (j - r)%nat with (S m) in Hl1, Hl2 by lia.
    destruct (F_SwapRange_ok f r (a * 2 ^ N.of_nat (S m)) (b * 2 ^ N.of_nat (S m)) (2 ^ N.of_nat (S m)))
      as (f1 & E & Hd & Hs & Hl & HG); [done|done|done|lia|lia|lia| |lia|].
    { clear - Hab. remember (2 ^ N.of_nat (S m)) as P. assert (a < b \/ b < a) as [?|?] by lia; [left|right]; nia. }
    assert (Hc1 : cells_only f f1) by (split; [done|split; done]).
    fold R in E. rewrite E. cbn [bind]. unfold R. rewrite !Parent_ok by done. cbn [bind].
    rewrite N.shiftr_div_pow2. change (2 ^ 1) with 2.
    assert (Hh : forall x, x * 2 ^ N.of_nat (S m) / 2 = x * 2 ^ N.of_nat m).
    { intros x. rewrite pow_nat_S. replace (x * (2 * 2 ^ N.of_nat m)) with (x * 2 ^ N.of_nat m * 2) by lia. by apply N.div_mul. }
    rewrite !Hh. replace (2 ^ N.of_nat (S m) / 2) with (2 ^ N.of_nat m) by (rewrite pow_nat_S, N.mul_comm, N.div_mul; done).
    assert (Hn1 := cells_only_n _ _ Hc1).
    destruct (IH f1 (S r) fuel) as (f2 & E2 & Hc2 & HG2); [lia|lia|by rewrite Hn1..|done| |].
    { intros r' Hr'. rewrite Hl. apply Hlen. lia. }
    cbv zeta in E2. rewrite Hn1 in E2. replace (N.of_nat r + 1) with (N.of_nat (S r)) by lia.
    rewrite E2. eexists. split; [done|]. split; [by eapply cells_only_trans|].
    intros r' i. rewrite HG2, HG. f_equal. destruct (decide (r' = r)) as [->|].
    + destruct (Nat.leb_spec (S r) r); [lia|]. rewrite Nat.leb_refl, swt_swi by (done || lia).
      replace (j - r)%nat with (S m) by lia. done.
    + destruct (Nat.leb_spec (S r) r'), (Nat.leb_spec r r'); try done; lia.
Qed.

Lemma F_SwapSubTrees_ok f j a b : f_n f <= 2 ^ 62 -> (j <= 30)%nat ->
  slot (NumRows (f_n f)) (N.of_nat j) a -> slot (NumRows (f_n f)) (N.of_nat j) b -> a <> b ->
  (forall r', (r' <= j)%nat -> (a + 1) * 2 ^ N.of_nat (j - r') <= len f r' /\
      (b + 1) * 2 ^ N.of_nat (j - r') <= len f r' /\ len f r' < two64) ->
  let R := NumRows (f_n f) in
  exists f', F_SwapSubTrees f (enc R (N.of_nat j) a) (enc R (N.of_nat j) b) = Ok (f', enc R (N.of_nat j + 1) (b / 2)) /\
    cells_only f f' /\ forall r i, G f' r i = G f r (swt j a b r i).
Proof.
  intros Hn Hj Ha Hb Hab Hlen R. unfold F_SwapSubTrees. unfold R.
  rewrite !DetectRow_ok by done. cbn [bind]. unfold assert_. rewrite N.eqb_refl. cbn [bind].
  pose proof (LeftDescendant_ok _ Hn 0 a (N.of_nat j)) as E1. pose proof (LeftDescendant_ok _ Hn 0 b (N.of_nat j)) as E2.
  rewrite N.add_0_l in E1, E2. rewrite E1, E2 by done. cbn [bind].
  destruct (N.leb_spec 31 (N.of_nat j)); [lia|].
  destruct (swap_subtrees_loop_ok j a b j f 0 64) as (f' & E & Hc & HG); [lia|lia|done..|].
  cbv zeta in E. change (N.of_nat 0) with 0 in E. rewrite E. by exists f'.
Qed.

(** ** Position map *)
Lemma shift_positions_lookup hs off h : forall m, NoDup hs ->
  shift_positions m hs off !! h = if decide (h ∈ hs) then (λ p, add64 p off) <$> m !! h else m !! h.
Proof.
  unfold shift_positions. induction hs as [|x hs IH]; intros m Hnd; cbn [fold_left].
  - by rewrite decide_False by (apply not_elem_of_nil).
  - apply NoDup_cons in Hnd as [Hx Hnd]. rewrite IH by done. destruct (decide (h = x)) as [->|Hne].
    + rewrite decide_False by done. rewrite decide_True by (by left).
      destruct (m !! x) as [p|] eqn:E; [by rewrite lookup_insert|by rewrite E].
    + assert (Hl : (match m !! x with Some p => <[x:=add64 p off]> m | None => m end) !! h = m !! h).
      { destruct (m !! x); [by rewrite lookup_insert_ne|done]. }
      rewrite Hl. destruct (decide (h ∈ hs)).
      * by rewrite decide_True by (by right).
      * rewrite decide_False; [done|]. rewrite elem_of_cons. naive_solver.
Qed.

(** The position map is the inverse of the leaf row. *)
Definition posmap_inv (f : forest) (n : N) : Prop :=
  forall h p, f_posmap f !! h = Some p <-> p < n /\ G f 0 p = h.
Definition leaves_inj (f : forest) (n : N) : Prop :=
  forall p q, p < n -> q < n -> G f 0 p = G f 0 q -> p = q.
Lemma posmap_inj f n : posmap_inv f n -> leaves_inj f n.
Proof.
  intros Hp p q Hp1 Hq1 HG. assert (E1 := proj2 (Hp (G f 0 p) p) (conj Hp1 eq_refl)).
  assert (E2 := proj2 (Hp (G f 0 p) q) (conj Hq1 (eq_sym HG))). congruence.
Qed.

Lemma leaf_slot n i : i < n -> n <= 2 ^ 62 -> slot (NumRows n) (N.of_nat 0) i.
Proof. intros Hi Hn. change (N.of_nat 0) with 0. split; [lia|]. rewrite N.sub_0_r. pose proof (NumRows_bound n). lia. Qed.

Lemma F_ReadLeafRange_ok f a k : f_n f <= 2 ^ 62 -> a + k <= f_n f -> f_n f <= len f 0 ->
  F_ReadLeafRange f a k = Ok (G f 0 <$> nseq a k).
Proof.
  intros Hn Ha Hl. unfold F_ReadLeafRange. apply mapM_ok. intros x Hx%nseq_elem.
  rewrite <- (enc_0 (NumRows (f_n f)) x) at 1. apply (F_Read_ok f 0 x); [done|apply leaf_slot; lia|lia].
Qed.

Lemma shift_swap (m : gmap N N) (g : N -> hash) n a b k : n < two64 -> a + k <= n -> b + k <= n -> (a + k <= b \/ b + k <= a) ->
  (forall h p, m !! h = Some p <-> p < n /\ g p = h) ->
  forall h p, shift_positions (shift_positions m (g <$> nseq a k) (sub64 b a)) (g <$> nseq b k) (sub64 a b) !! h = Some p <->
    p < n /\ g (swi a b k p) = h.
Proof.
  intros H64 Ha Hb Hd Hp.
  assert (Hinj : forall p q, p < n -> q < n -> g p = g q -> p = q).
  { intros p q Hp1 Hq1 HG. assert (E1 := proj2 (Hp (g p) p) (conj Hp1 eq_refl)).
    assert (E2 := proj2 (Hp (g p) q) (conj Hq1 (eq_sym HG))). congruence. }
  assert (Hnd : forall c, c + k <= n -> NoDup (g <$> nseq c k)).
  { intros c Hc. apply NoDup_fmap_2_strong; [|apply nseq_NoDup]. intros x y Hx%nseq_elem Hy%nseq_elem. apply Hinj; lia. }
  assert (Hin : forall c p, c + k <= n -> p < n -> g p ∈ (g <$> nseq c k) <-> c <= p < c + k).
  { intros c p Hc Hlt. rewrite elem_of_list_fmap. split.
    - intros (y & Hy & Hy2%nseq_elem). apply Hinj in Hy; [subst; lia|lia|lia].
    - intros Hc2. exists p. split; [done|]. by apply nseq_elem. }
  assert (Hval : forall h q, m !! h = Some q ->
    shift_positions (shift_positions (m) (g <$> nseq a k) (sub64 b a)) (g <$> nseq b k) (sub64 a b) !! h = Some (swi a b k q)).
  { intros h q Hq. pose proof Hq as [Hlt HG]%Hp. subst h.
    rewrite !shift_positions_lookup by auto.
    assert (Hsub : forall x y z, x <= z -> z < two64 -> y + (z - x) < two64 -> x < two64 -> y < two64 -> add64 z (sub64 y x) = y + (z - x)).
    { clear. intros x y z H1 H2 H3 H4 H5. unfold add64, sub64. rewrite (w64_small x) by done. unfold w64.
      rewrite N.add_mod_idemp_r by done. replace (z + (y + two64 - x)) with (y + (z - x) + 1 * two64) by lia.
      rewrite N.mod_add by done. by apply N.mod_small. }
    unfold swi. rewrite Hq. destruct (decide (g q ∈ g <$> nseq a k)) as [Hx|Hx];
      destruct (decide (g q ∈ g <$> nseq b k)) as [Hy|Hy]; rewrite Hin in Hx by lia; rewrite Hin in Hy by lia.
    - lia.
    - cbn [fmap option_fmap option_map]. f_equal. rewrite Hsub by lia.
      destruct (N.leb_spec a q), (N.ltb_spec q (a + k)); cbn [andb]; lia.
    - cbn [fmap option_fmap option_map]. f_equal. rewrite Hsub by lia.
      destruct (N.leb_spec a q), (N.ltb_spec q (a + k)), (N.leb_spec b q), (N.ltb_spec q (b + k)); cbn [andb]; lia.
    - f_equal. destruct (N.leb_spec a q), (N.ltb_spec q (a + k)), (N.leb_spec b q), (N.ltb_spec q (b + k)); cbn [andb]; lia. }
  assert (Hinv : forall q, swi a b k (swi a b k q) = q /\ (q < n -> swi a b k q < n)).
  { intros q. unfold swi. clear - Ha Hb Hd.
    assert (Hc : (a <= q < a + k) \/ (b <= q < b + k) \/ ((q < a \/ a + k <= q) /\ (q < b \/ b + k <= q))) by lia.
    destruct Hc as [Hc|[Hc|Hc]].
    - rewrite (proj2 (N.leb_le a q)), (proj2 (N.ltb_lt q (a + k))) by lia. cbn [andb].
      destruct (N.leb_spec a (b + (q - a))), (N.ltb_spec (b + (q - a)) (a + k)), (N.leb_spec b (b + (q - a))),
        (N.ltb_spec (b + (q - a)) (b + k)); cbn [andb]; lia.
    - rewrite (proj2 (N.leb_le b q)), (proj2 (N.ltb_lt q (b + k))) by lia. cbn [andb].
      destruct (N.leb_spec a q), (N.ltb_spec q (a + k)); cbn [andb]; [lia|..];
      (destruct (N.leb_spec a (a + (q - b))), (N.ltb_spec (a + (q - b)) (a + k)); cbn [andb]; lia).
    - destruct (N.leb_spec a q), (N.ltb_spec q (a + k)), (N.leb_spec b q), (N.ltb_spec q (b + k)); cbn [andb]; try lia;
      (destruct (N.leb_spec a q), (N.ltb_spec q (a + k)), (N.leb_spec b q), (N.ltb_spec q (b + k)); cbn [andb]; lia). }
  intros h p. split.
  - intros Hm. destruct (m !! h) as [q|] eqn:Eq.
    + rewrite (Hval h q Eq) in Hm. injection Hm as <-. apply Hp in Eq as [Hlt HG].
      split; [by apply Hinv|]. by rewrite (proj1 (Hinv q)).
    + rewrite !shift_positions_lookup, Eq in Hm by auto. by repeat destruct (decide _).
  - intros [Hlt HG]. pose proof (proj2 (Hp h (swi a b k p)) (conj (proj2 (Hinv p) Hlt) HG)) as Hq.
    rewrite (Hval _ _ Hq). f_equal. apply Hinv.
Qed.

Lemma F_UpdatePositionMapForRange_ok f a b k : f_n f <= 2 ^ 62 -> f_n f <= len f 0 ->
  a + k <= f_n f -> b + k <= f_n f -> (a + k <= b \/ b + k <= a) -> posmap_inv f (f_n f) ->
  exists m, F_UpdatePositionMapForRange f a b k = Ok (set_posmap f m) /\
    forall h p, m !! h = Some p <-> p < f_n f /\ G f 0 (swi a b k p) = h.
Proof.
  intros Hn Hlen Ha Hb Hd Hp. unfold F_UpdatePositionMapForRange.
  assert (H64 : f_n f < two64) by (pose proof (pow_R_64 62 ltac:(lia)); lia).
  destruct (N.eqb_spec (N.of_nat (base.size (f_posmap f))) 0) as [E|E].
  { exists (f_posmap f). split; [by destruct f|]. assert (f_posmap f = ∅) as He by (apply map_size_empty_iff; lia).
    intros h p. rewrite He, lookup_empty. split; [done|]. intros [Hlt _].
    pose proof (proj2 (Hp (G f 0 p) p) (conj Hlt eq_refl)) as Hx. by rewrite He, lookup_empty in Hx. }
  rewrite !F_ReadLeafRange_ok by done. cbn [bind]. eexists. split; [done|]. by apply shift_swap.
Qed.

Lemma F_UpdatePositionMapForSubtreeSwap_ok f j a b : f_n f <= 2 ^ 62 -> f_n f <= len f 0 ->
  node (f_n f) (N.of_nat j) a -> node (f_n f) (N.of_nat j) b -> a <> b -> posmap_inv f (f_n f) ->
  exists m, F_UpdatePositionMapForSubtreeSwap f (enc (NumRows (f_n f)) (N.of_nat j) a) (enc (NumRows (f_n f)) (N.of_nat j) b)
      = Ok (set_posmap f m) /\
    forall h p, m !! h = Some p <-> p < f_n f /\ G f 0 (swt j a b 0 p) = h.
Proof.
  intros Hn Hl Ha Hb Hab Hp. pose proof (node_slot _ _ _ Ha) as Hsa. pose proof (node_slot _ _ _ Hb) as Hsb.
  unfold F_UpdatePositionMapForSubtreeSwap. rewrite DetectRow_ok by done. cbn [bind].
  pose proof (LeftDescendant_ok _ Hn 0 a (N.of_nat j)) as E1. pose proof (LeftDescendant_ok _ Hn 0 b (N.of_nat j)) as E2.
  rewrite N.add_0_l in E1, E2. rewrite E1, E2 by done. cbn [bind]. rewrite !enc_0.
  pose proof (R62 _ Hn) as HR. destruct Hsa as [Hj _].
  rewrite shl64_ok by lia. rewrite N.mul_1_l, w64_small by (apply pow_R_64; lia). cbn [bind].
  unfold node in *. destruct (F_UpdatePositionMapForRange_ok f (a * 2 ^ N.of_nat j) (b * 2 ^ N.of_nat j) (2 ^ N.of_nat j))
    as (m & Em & Hm); [done|done|lia|lia| |done|].
  { clear - Hab. remember (2 ^ N.of_nat j) as P. assert (a < b \/ b < a) as [?|?] by lia; [left|right]; nia. }
  exists m. split; [done|]. intros h p. rewrite Hm, swt_swi by (done || lia). by rewrite Nat.sub_0_r.
Qed.
