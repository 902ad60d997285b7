(** * UndoFacts: UndoTransform and Undo (proofs) *)
From stdpp Require Import sorting.
From Verif Require Import Base StateModel CodecModel ForestModel PosSpec PosFacts PathFacts MerkleSpec TargetFacts ForestFacts RowFacts
  TransformFacts SpecFacts RemoveFacts ForestInv AddFacts.
From Coq Require Import ZifyBool ZifyNat ZifyN.
Ltac Zify.zify_post_hook ::= idtac.
Ltac dlia := zify; Z.div_mod_to_equations; lia.

(** ** UndoTransform *)
(** A swap of two nodes of one row: row, collapse flag, indices. *)
Definition nswap := (nat * bool * (N * N))%type.
Definition sw_of (R : N) (x : nswap) : swap :=
  mk_collapse (enc R (N.of_nat x.1.1) x.2.1) (enc R (N.of_nat x.1.1) x.2.2) x.1.2.
Definition lf_of (x : nswap) : swap :=
  match x.1.1 with
  | O => mk_collapse x.2.1 x.2.2 x.1.2
  | S _ => mk_range_swap (x.2.1 * 2 ^ N.of_nat x.1.1) (x.2.2 * 2 ^ N.of_nat x.1.1) (2 ^ N.of_nat x.1.1)
  end.
Definition row_swaps (n : N) (L0 : list cell) (c : nat) : list nswap :=
  ((λ s : N * N, (c, false, s)) <$> rsws (rowat L0 c)) ++ ((λ s : N * N, (c, true, s)) <$> colpair n L0 c).
Definition all_swaps (n : N) (L0 : list cell) (c k : nat) : list nswap := concat (row_swaps n L0 <$> seq c k).

Lemma fin_row n L0 c : fin n L0 c = sw_of (NumRows n) <$> row_swaps n L0 c.
Proof. unfold fin, row_swaps, sws. rewrite fmap_app, <- !list_fmap_compose. done. Qed.
Lemma concat_fin n L0 c k : concat (fin n L0 <$> seq c k) = sw_of (NumRows n) <$> all_swaps n L0 c k.
Proof.
  unfold all_swaps. revert c. induction k as [|k IH]; intros c; [done|]. cbn [seq fmap list_fmap concat].
  rewrite fin_row, fmap_app. f_equal. apply IH.
Qed.
Definition good_swap (n : N) (x : nswap) : Prop :=
  node n (N.of_nat x.1.1) x.2.1 /\ node n (N.of_nat x.1.1) x.2.2 /\ x.2.1 <> x.2.2.
Lemma all_swaps_good n L0 h : n <= 2 ^ 62 -> size L0 = n -> (h <= N.to_nat (NumRows n))%nat ->
  (forall i, (i < h)%nat -> dead 0 (rowat L0 i) <> []) -> forall x, x ∈ all_swaps n L0 0 h -> good_swap n x.
Proof.
  intros Hn HL Hh Hd x Hx. unfold all_swaps in Hx. apply elem_of_list_In, in_concat in Hx as (l & Hl%elem_of_list_In & Hx%elem_of_list_In).
  apply elem_of_list_fmap in Hl as (c & -> & Hc%elem_of_seq). unfold row_swaps in Hx.
  apply elem_of_app in Hx as [Hx|Hx]; apply elem_of_list_fmap in Hx as (s & -> & Hs); unfold good_swap; cbn [fst snd].
  - by apply (rsws_node62 n Hn L0 HL).
  - apply (colpair_node62 n Hn L0 HL h Hh Hd c s); [lia|done].
Qed.
Lemma ToLeaves_ok n x : n <= 2 ^ 62 -> good_swap n x -> ToLeaves n (sw_of (NumRows n) x) = Ok (lf_of x).
Proof.
  intros Hn (H1 & H2 & _). destruct x as [[c b] [i j]]. unfold ToLeaves, sw_of. cbn [m_from m_to mk_collapse fst snd] in *.
  pose proof (node_slot _ _ _ H1) as S1. pose proof (node_slot _ _ _ H2) as S2.
  rewrite DetectRow_ok by done. cbn [bind]. unfold lf_of. cbn [fst snd]. destruct c as [|c].
  - change (N.of_nat 0 =? 0) with true. cbn iota. change (N.of_nat 0) with 0. by rewrite !enc_0.
  - destruct (N.eqb_spec (N.of_nat (S c)) 0); [lia|].
    pose proof (R62 _ Hn). destruct S1 as [Sr _].
    pose proof (LeftDescendant_ok n Hn 0 i (N.of_nat (S c))) as L1. pose proof (LeftDescendant_ok n Hn 0 j (N.of_nat (S c))) as L2.
    rewrite N.add_0_l in L1, L2. rewrite L1, L2 by (done || by apply node_slot). cbn [bind].
    rewrite shl64_ok by lia. cbn [bind]. rewrite N.mul_1_l, w64_small by (apply pow_R_64; lia). by rewrite !enc_0.
Qed.
Lemma UndoTransform_ok n L0 h : n <= 2 ^ 62 -> size L0 = n -> (h <= N.to_nat (NumRows n))%nat ->
  (forall i, (i < h)%nat -> dead 0 (rowat L0 i) <> []) -> Transform n (dead 0 L0) = Ok (fin n L0 <$> seq 0 h) ->
  UndoTransform n (dead 0 L0) = Ok (lf_of <$> all_swaps n L0 0 h).
Proof.
  intros Hn HL Hh Hd Ht. unfold UndoTransform. rewrite Ht. cbn [bind]. rewrite concat_fin.
  pose proof (all_swaps_good n L0 h Hn HL Hh Hd) as Hg. revert Hg. generalize (all_swaps n L0 0 h) as l. intros l Hg.
  replace (List.filter _ (sw_of (NumRows n) <$> l)) with (sw_of (NumRows n) <$> l).
  - induction l as [|x l IH]; [done|]. cbn [fmap list_fmap mapM_]. rewrite ToLeaves_ok by (done || apply Hg; left). cbn [bind].
    rewrite IH by (intros y Hy; apply Hg; by right). done.
  - induction l as [|x l IH]; [done|]. cbn [fmap list_fmap List.filter]. rewrite <- IH by (intros y Hy; apply Hg; by right).
    destruct (N.eqb_spec (m_from (sw_of (NumRows n) x)) (m_to (sw_of (NumRows n) x))) as [E|E]; [|done].
    exfalso. destruct (Hg x ltac:(left)) as (_ & _ & Hne). unfold sw_of in E. cbn [m_from m_to mk_collapse] in E.
    by apply enc_inj1 in E.
Qed.

(** ** The movement of the leaves *)
Definition lact (ss : list nswap) (x : N) : N := fold_left (λ x s, swt s.1.1 s.2.1 s.2.2 0 x) ss x.
Lemma lact_app l1 l2 x : lact (l1 ++ l2) x = lact l2 (lact l1 x).
Proof. apply fold_left_app. Qed.
Lemma lact_row c b l x : lact ((λ s : N * N, (c, b, s)) <$> l) x = lift (N.of_nat c) (act l) x.
Proof.
  revert x. induction l as [|s l IH]; intros x; [by rewrite lift_id|]. cbn [fmap list_fmap]. unfold lact in *. cbn [fold_left fst snd].
  rewrite IH, swt_lift by lia. rewrite Nat.sub_0_r, lift_lift. done.
Qed.
Lemma lact_rows n L0 k : forall j x, lact (all_swaps n L0 j k) x = rowsact n L0 k j x.
Proof.
  induction k as [|k IH]; intros j x; [done|]. unfold all_swaps. cbn [seq fmap list_fmap concat rowsact].
  rewrite lact_app. unfold all_swaps in IH. rewrite IH. f_equal. unfold row_swaps. rewrite lact_app, !lact_row, lift_lift.
  unfold lift. by rewrite sigma_colpair.
Qed.
Lemma rowsact_app n L0 k1 k2 : forall j x, rowsact n L0 (k1 + k2) j x = rowsact n L0 k2 (j + k1) (rowsact n L0 k1 j x).
Proof.
  induction k1 as [|k1 IH]; intros j x; cbn [Nat.add rowsact]; [by rewrite Nat.add_0_r|]. rewrite IH. f_equal. lia.
Qed.
Lemma dead_up L0 h k : dead 0 (rowat L0 h) = [] -> dead 0 (rowat L0 (h + k)) = [].
Proof.
  intros Hd. induction k as [|k IH]; [by rewrite Nat.add_0_r|]. rewrite Nat.add_succ_r, rowat_S. by destruct (full_row _ IH) as (_ & _ & Hx & _).
Qed.
Lemma rowsact_full n L0 h k x : dead 0 (rowat L0 h) = [] -> rowsact n L0 k h x = x.
Proof.
  revert h x. induction k as [|k IH]; intros h x Hd; [done|]. cbn [rowsact]. rewrite IH.
  - apply lift_id. intros y. unfold Y. destruct (decide (S h <= N.to_nat (NumRows n))%nat) as [Hle|Hle].
    + rewrite rowat_S. by apply sigma_full.
    + rewrite rowat_S. by apply sigma_full.
  - pose proof (dead_up L0 h 1 Hd) as Hx. by rewrite Nat.add_1_r in Hx.
Qed.
Lemma lact_all n L0 h x : (h <= N.to_nat (NumRows n))%nat -> h = N.to_nat (NumRows n) \/ dead 0 (rowat L0 h) = [] ->
  lact (all_swaps n L0 0 h) x = rowsact n L0 (N.to_nat (NumRows n)) 0 x.
Proof.
  intros Hh [E|E]; [by rewrite lact_rows, E|]. rewrite lact_rows.
  replace (N.to_nat (NumRows n)) with (h + (N.to_nat (NumRows n) - h))%nat by lia. rewrite rowsact_app.
  by rewrite (rowsact_full n L0 (0 + h)) by done.
Qed.

(** ** The swaps of Undo *)
Definition moves (x : nswap) (p : N) : Prop :=
  p / 2 ^ N.of_nat x.1.1 = x.2.1 \/ p / 2 ^ N.of_nat x.1.1 = x.2.2.
Lemma lf_fields x : m_from (lf_of x) = x.2.1 * 2 ^ N.of_nat x.1.1 /\ m_to (lf_of x) = x.2.2 * 2 ^ N.of_nat x.1.1 /\
  (if m_is_range_swap (lf_of x) then m_range (lf_of x) else 1) = 2 ^ N.of_nat x.1.1.
Proof.
  destruct x as [[c b] [i j]]. unfold lf_of. cbn [fst snd]. destruct c as [|c]; [|done].
  cbn [m_from m_to m_is_range_swap mk_collapse]. change (2 ^ N.of_nat 0) with 1. split; [lia|]. split; [lia|done].
Qed.
Lemma div_range p a P : 0 < P -> p / P = a <-> a * P <= p < a * P + P.
Proof.
  intros HP. split.
  - intros <-. pose proof (N.mul_div_le p P ltac:(lia)). pose proof (N.mul_succ_div_gt p P ltac:(lia)). lia.
  - intros Hp. symmetry. apply (N.div_unique p P a (p - a * P)); lia.
Qed.
Lemma swt_still c a b p : p / 2 ^ N.of_nat c <> a -> p / 2 ^ N.of_nat c <> b -> swt c a b 0 p = p.
Proof.
  intros Ha Hb. rewrite swt_lift, Nat.sub_0_r by lia. unfold lift, sw. pose proof (pow_pos (N.of_nat c)).
  destruct (N.eqb_spec (p / 2 ^ N.of_nat c) a); [done|]. destruct (N.eqb_spec (p / 2 ^ N.of_nat c) b); [done|].
  rewrite N.mul_comm. symmetry. apply N.div_mod. lia.
Qed.
Lemma lact_still ss p : (forall s, s ∈ ss -> ~ moves s p) -> lact ss p = p.
Proof.
  induction ss as [|s ss IH]; intros Hm; [done|]. unfold lact in *. cbn [fold_left].
  pose proof (Hm s ltac:(left)) as Hs. unfold moves in Hs. rewrite swt_still by tauto. apply IH. intros s' Hs'. apply Hm. by right.
Qed.

Lemma range_elems a b k x : a + k < two64 -> b + k < two64 ->
  x ∈ concat ((λ i, [add64 a i; add64 b i]) <$> nseq 0 k) <-> a <= x < a + k \/ b <= x < b + k.
Proof.
  intros Ha Hb. rewrite elem_of_list_In, in_concat. split.
  - intros (l & Hl & Hx). apply elem_of_list_In, elem_of_list_fmap in Hl as (i & -> & Hi%nseq_elem).
    rewrite !add64_small in Hx by lia. apply elem_of_list_In in Hx. rewrite !elem_of_cons, elem_of_nil in Hx. lia.
  - intros [Hx|Hx].
    + exists [add64 a (x - a); add64 b (x - a)]. split.
      * apply elem_of_list_In, elem_of_list_fmap. exists (x - a). split; [done|]. apply nseq_elem. lia.
      * rewrite add64_small by lia. left. lia.
    + exists [add64 a (x - b); add64 b (x - b)]. split.
      * apply elem_of_list_In, elem_of_list_fmap. exists (x - b). split; [done|]. apply nseq_elem. lia.
      * rewrite !add64_small by lia. right. left. lia.
Qed.

Lemma undo_swaps_ok n (es : list nswap) : n <= 2 ^ 62 -> (forall s, s ∈ es -> good_swap n s) ->
  forall f dirt, f_n f = n -> n <= len f 0 -> len f 0 < two64 -> posmap_inv f n ->
  exists f' dirt', undo_swaps_loop f dirt (lf_of <$> es) = Ok (f', dirt') /\ same_shape f f' /\ posmap_inv f' n /\
    (forall x, G f' 0 x = G f 0 (lact (rev es) x)) /\ (forall r i, r <> 0%nat -> G f' r i = G f r i) /\
    (forall x, x ∈ dirt' <-> x ∈ dirt \/ exists s, s ∈ es /\ moves s x).
Proof.
  intros Hn. induction es as [|s es IH]; intros Hg f dirt Hfn Hl1 Hl2 Hp.
  - exists f, dirt. split; [done|]. split; [done|]. split; [done|]. split; [done|]. split; [done|]. intros x. split; [by left|].
    intros [?|(s & Hs%elem_of_nil & _)]; done.
  - destruct (Hg s ltac:(left)) as (H1 & H2 & H3). destruct s as [[c b0] [a b]]. cbn [fst snd] in *.
    destruct (lf_fields (c, b0, (a, b))) as (E1 & E2 & E3). cbn [fst snd] in *.
    cbn [fmap list_fmap undo_swaps_loop]. rewrite E1, E2, E3.
    pose proof (pow_pos (N.of_nat c)) as HP. remember (2 ^ N.of_nat c) as P eqn:EP.
    unfold node in H1, H2. rewrite <- EP in H1, H2.
    assert (Hdis : a * P + P <= b * P \/ b * P + P <= a * P) by nia.
    assert (Hsw : forall x, swi (a * P) (b * P) P x = swt c a b 0 x).
    { intros x. rewrite (swt_swi c a b 0 x) by (done || lia). rewrite Nat.sub_0_r, <- EP. done. }
    destruct (F_UpdatePositionMapForRange_ok f (a * P) (b * P) P) as (m & Em & Hm); rewrite ?Hfn; try (done || lia).
    rewrite Em. cbn [bind].
    destruct (F_SwapRange_ok (set_posmap f m) 0 (a * P) (b * P) P) as (f1 & Ef1 & [d Hd] & Hs1 & Hln1 & HG1).
    { cbn [f_n set_posmap]. lia. }
    { cbn [f_n set_posmap]. rewrite Hfn. apply leaf_slot; lia. }
    { cbn [f_n set_posmap]. rewrite Hfn. apply leaf_slot; lia. }
    { done. }
    { change (len (set_posmap f m) 0) with (len f 0). lia. }
    { change (len (set_posmap f m) 0) with (len f 0). lia. }
    { done. }
    { done. }
    change (N.of_nat 0) with 0 in Ef1. rewrite !enc_0 in Ef1. rewrite Ef1. cbn [bind].
    assert (HG0 : forall x, G f1 0 x = G f 0 (swt c a b 0 x)).
    { intros x. rewrite HG1. destruct (decide _); [|done]. rewrite Hsw. done. }
    assert (HGr : forall r i, r <> 0%nat -> G f1 r i = G f r i).
    { intros r i Hr. rewrite HG1. by destruct (decide _). }
    assert (Hn1 : f_n f1 = n) by (by rewrite Hd).
    assert (Hp1 : posmap_inv f1 n).
    { intros h p. rewrite Hd. cbn [f_posmap set_data set_posmap]. rewrite Hm, Hfn, <- Hd, HG0, Hsw. done. }
    destruct (IH ltac:(intros s' Hs'; apply Hg; by right) f1
      (dirt ++ concat ((λ i, [add64 (a * P) i; add64 (b * P) i]) <$> nseq 0 P))) as (f' & dirt' & E & Hsh & Hp' & HG & HGr' & Hdirt).
    { done. } { rewrite Hln1. done. } { rewrite Hln1. done. } { done. }
    rewrite E. exists f', dirt'. split; [done|]. split.
    { eapply same_trans; [|exact Hsh]. split; [congruence|]. split; [by rewrite Hd|]. split; done. }
    split; [done|]. split; [|split].
    + intros x. rewrite HG, HG0. cbn [rev]. rewrite lact_app. done.
    + intros r i Hr. rewrite HGr', HGr by done. done.
    + intros x. rewrite Hdirt, elem_of_app.
      assert (H64 : 2 ^ 62 < two64) by done. rewrite range_elems by lia.
      rewrite <- !div_range by done. split.
      * intros [[?|Hx]|(s & Hs & Hms)]; [by left| |].
        -- right. exists (c, b0, (a, b)). split; [by left|]. unfold moves. cbn [fst snd]. by rewrite <- EP.
        -- right. exists s. split; [by right|done].
      * intros [?|(s & [->|Hs]%elem_of_cons & Hms)]; [by left; left| |].
        -- left. right. unfold moves in Hms. cbn [fst snd] in Hms. by rewrite <- EP in Hms.
        -- right. by exists s.
Qed.

(** ** Erasing and placing leaves *)
Lemma undo_erase_ok f n k : wide f n -> n <= 2 ^ 62 -> leaves_inj f n -> forall a (m : gmap N N), a + k <= n ->
  (forall p, a <= p < a + k -> m !! G f 0 p <> None) ->
  exists m' : gmap N N, undo_erase f m (nseq a k) = Ok (true, m') /\
    forall h, m' !! h = if decide (h ∈ G f 0 <$> nseq a k) then None else m !! h.
Proof.
  intros Hw Hn Hinj. pose proof Hw as [Hfn _]. induction k as [|k IH] using N_ind1; intros a m Ha Hm.
  - exists m. split; [done|]. intros h. by rewrite decide_False by (apply not_elem_of_nil).
  - rewrite nseq_cons. cbn [undo_erase].
    assert (HR : F_Read f a = Ok (G f 0 a)).
    { rewrite <- (enc_0 (NumRows (f_n f)) a) at 1. apply (F_Read_ok f 0).
      - lia.
      - rewrite Hfn. apply leaf_slot; lia.
      - apply wide_len0 in Hw. lia. }
    rewrite HR. cbn [bind]. pose proof (Hm a ltac:(lia)) as Hma. destruct (m !! G f 0 a) as [q|] eqn:Eq; [|done].
    destruct (IH (a + 1) (delete (G f 0 a) m) ltac:(lia)) as (m' & E & Hm').
    { intros p Hpr. rewrite lookup_delete_ne; [apply Hm; lia|]. intros Eg. apply Hinj in Eg; lia. }
    exists m'. split; [done|]. intros h. rewrite Hm', fmap_cons. destruct (decide (h ∈ G f 0 <$> nseq (a + 1) k)) as [Hin|Hin].
    + rewrite decide_True; [done|]. by right.
    + destruct (decide (h = G f 0 a)) as [->|Hne].
      * rewrite lookup_delete, decide_True; [done|]. by left.
      * rewrite lookup_delete_ne by done. rewrite decide_False; [done|]. by rewrite not_elem_of_cons.
Qed.

Lemma undo_place_ok n1 hs : forall i row0 (m : gmap N N) dirt, n1 + i + size hs <= size row0 -> size row0 < two64 ->
  NoDup hs -> (forall h, h ∈ hs -> m !! h = None) ->
  exists row0', undo_place n1 i row0 m dirt hs = Ok (true, row0', add_pos m (n1 + i) hs, dirt ++ nseq (n1 + i) (size hs)) /\
    size row0' = size row0 /\
    (forall p, p < n1 + i -> row0' !!! N.to_nat p = row0 !!! N.to_nat p) /\
    (forall q, q < size hs -> row0' !!! N.to_nat (n1 + i + q) = hs !!! N.to_nat q).
Proof.
  induction hs as [|h hs IH]; intros i row0 m dirt Hs H64 Hnd Hm.
  - exists row0. cbn [undo_place add_pos]. rewrite app_nil_r. split; [done|]. split; [done|]. split; [done|]. intros q Hq.
    unfold size in Hq. cbn [length] in Hq. lia.
  - assert (Hsz : size (h :: hs) = size hs + 1) by (unfold size; cbn [length]; lia). rewrite Hsz in *.
    cbn [undo_place add_pos]. rewrite add64_small by lia.
    destruct (N.leb_spec (size row0) (n1 + i)); [lia|]. rewrite vec_set_ok by lia. cbn [bind]. rewrite Hm by (by left).
    apply NoDup_cons in Hnd as [Hh Hnd].
    destruct (IH (i + 1) (<[N.to_nat (n1 + i) := h]> row0) (<[h := n1 + i]> m) (dirt ++ [n1 + i])) as (r' & E & Hr1 & Hr2 & Hr3).
    { rewrite size_insert. lia. } { by rewrite size_insert. } { done. }
    { intros x Hx. rewrite lookup_insert_ne by (intros ->; done). apply Hm. by right. }
    rewrite N.add_assoc in E. rewrite size_insert in Hr1.
    exists r'. split.
    { rewrite nseq_cons. rewrite E, <- app_assoc. done. }
    split; [done|]. split.
    + intros p Hp. rewrite Hr2 by lia. rewrite insert_total by lia. destruct (decide _); [lia|done].
    + intros q Hq. destruct (N.eq_dec q 0) as [->|Hq0].
      * rewrite Hr2 by lia. rewrite N.add_0_r, insert_total by lia. by rewrite decide_True.
      * replace (n1 + i + q) with (n1 + (i + 1) + (q - 1)) by lia. rewrite Hr3 by lia.
        replace (N.to_nat q) with (S (N.to_nat (q - 1))) by lia. done.
Qed.

(** ** The dirt *)
Lemma dedup_elem l x : x ∈ dedup_sorted l <-> x ∈ l.
Proof.
  induction l as [|a l IH]; [done|]. destruct l as [|b l]; [done|].
  change (dedup_sorted (a :: b :: l)) with (if a =? b then dedup_sorted (b :: l) else a :: dedup_sorted (b :: l)).
  destruct (N.eqb_spec a b) as [->|]; rewrite ?elem_of_cons, ?IH, ?elem_of_cons; naive_solver.
Qed.
Lemma dirt_list_elem l x : x ∈ dedup_sorted (sortN l) <-> x ∈ l.
Proof. rewrite dedup_elem. by rewrite (sortN_perm l). Qed.

Global Instance node_dec n r i : Decision (node n r i).
Proof. unfold node. apply _. Defined.
Lemma leaf_parent n p : p < n -> (N.testbit n 0 && (2 * (n / 2 ^ (0 + 1)) <=? p)) = negb (bool_decide (node n 1 (p / 2))).
Proof.
  intros Hp. rewrite testbit_mod. change (2 ^ (0 + 1)) with 2. change (2 ^ 0) with 1. rewrite N.div_1_r.
  case_bool_decide as Hd; unfold node in Hd; change (2 ^ 1) with 2 in Hd; cbn [negb];
  destruct (N.eqb_spec (n mod 2) 1), (N.leb_spec (2 * (n / 2)) p); cbn [andb]; try done; exfalso; dlia.
Qed.
Lemma undo_first_dirt_ok n ps : n <= 2 ^ 62 -> (forall p, p ∈ ps -> p < n) -> forall A,
  exists A', undo_first_dirt n ps (enc (NumRows n) 1 <$> A) = Ok (enc (NumRows n) 1 <$> A') /\
    (forall x, x ∈ A -> x ∈ A') /\ (forall x, x ∈ A' -> x ∈ A \/ node n 1 x) /\
    (forall p, p ∈ ps -> node n 1 (p / 2) -> p / 2 ∈ A').
Proof.
  intros Hn. induction ps as [|p ps IH]; intros Hps A.
  - exists A. split; [done|]. split; [done|]. split; [by left|]. by intros ? ?%elem_of_nil.
  - assert (Hp : p < n) by (apply Hps; left). cbn [undo_first_dirt].
    assert (Hpar : Parent n p = Ok (enc (NumRows n) 1 (p / 2))).
    { pose proof (Parent_ok n Hn 0 p) as HP. rewrite enc_0 in HP. change (0 + 1) with 1 in HP. apply HP. by apply leaf_slot. }
    rewrite Hpar. cbn [bind]. rewrite HasRoot_ok by lia. cbn [bind].
    assert (Hskip : (if N.testbit n 0 then let* rp := RootPosition n 0 in Ok (rp <=? p) else Ok false) = Ok (negb (bool_decide (node n 1 (p / 2))))).
    { rewrite <- leaf_parent by done. destruct (N.testbit n 0); [|done]. rewrite RootPosition_ok by (done || lia). cbn [bind andb]. by rewrite enc_0. }
    rewrite Hskip. cbn [bind]. specialize (IH ltac:(intros q Hq; apply Hps; by right)).
    case_bool_decide as Hd; cbn [negb].
    + assert (Hpush : exists A', undo_first_dirt n ps ((enc (NumRows n) 1 <$> A) ++ [enc (NumRows n) 1 (p / 2)]) = Ok (enc (NumRows n) 1 <$> A') /\
        (forall x, x ∈ A -> x ∈ A') /\ (forall x, x ∈ A' -> x ∈ A \/ node n 1 x) /\
        (forall q, q ∈ p :: ps -> node n 1 (q / 2) -> q / 2 ∈ A')).
      { destruct (IH (A ++ [p / 2])) as (A' & E & H1 & H2 & H3). rewrite fmap_app in E. exists A'. split; [exact E|].
        split; [intros x Hx; apply H1, elem_of_app; by left|]. split.
        - intros x [Hx|Hx]%H2; [|by right]. apply elem_of_app in Hx as [?|Hx]; [by left|]. apply elem_of_list_singleton in Hx as ->. by right.
        - intros q [->|Hq]%elem_of_cons Hnq; [|by apply H3]. apply H1, elem_of_app. right. by left. }
      destruct (last (enc (NumRows n) 1 <$> A)) as [b|] eqn:El; [|exact Hpush].
      destruct (N.eqb_spec b (enc (NumRows n) 1 (p / 2))) as [E|E]; [|exact Hpush].
      destruct (IH A) as (A' & E' & H1 & H2 & H3). exists A'. split; [exact E'|]. split; [done|]. split; [done|].
      intros q [->|Hq]%elem_of_cons Hnq; [|by apply H3]. apply H1.
      rewrite fmap_last in El. destruct (last A) as [x|] eqn:El2; [|done]. cbn in El. apply (inj Some) in El.
      rewrite E in El. apply enc_inj1 in El. rewrite <- El. by apply last_Some_elem_of.
    + destruct (IH A) as (A' & E' & H1 & H2 & H3). exists A'. split; [exact E'|]. split; [done|]. split; [done|].
      intros q [->|Hq]%elem_of_cons Hnq; [done|by apply H3].
Qed.

Section Undo.
Context (H : hash -> hash -> hash).

Lemma undo_rehash_ok n r D : n <= 2 ^ 62 -> (forall d, d ∈ D -> node n (N.of_nat (S r)) d) ->
  forall f A, f_n f = n -> n / 2 ^ N.of_nat (S r) <= len f (S r) -> n / 2 ^ N.of_nat r <= len f r ->
  exists f' A', undo_rehash H f n (enc (NumRows n) (N.of_nat (S r)) <$> D) (enc (NumRows n) (N.of_nat (S (S r))) <$> A)
      = Ok (f', enc (NumRows n) (N.of_nat (S (S r))) <$> A') /\
    cells_only f f' /\
    (forall r' i, (r' <> S r \/ i ∉ D) -> G f' r' i = G f r' i) /\
    (forall i, i ∈ D -> G f' (S r) i = H (G f r (2 * i)) (G f r (2 * i + 1))) /\
    (forall x, x ∈ A -> x ∈ A') /\
    (forall x, x ∈ A' -> x ∈ A \/ node n (N.of_nat (S (S r))) x) /\
    (forall d, d ∈ D -> node n (N.of_nat (S (S r))) (d / 2) -> d / 2 ∈ A').
Proof.
  intros Hn. induction D as [|d D IH]; intros HD f A Hfn HlS Hlr.
  - exists f, A. split; [done|]. split; [apply cells_only_refl|]. split; [done|]. split; [by intros ? ?%elem_of_nil|].
    split; [done|]. split; [by left|]. by intros ? ?%elem_of_nil.
  - assert (Hd : node n (N.of_nat (S r)) d) by (apply HD; left).
    assert (Hdl : d < len f (S r)) by (apply node_iff in Hd; lia).
    assert (Hcl : 2 * d + 1 < len f r).
    { assert (Hd' : node n (N.of_nat r + 1) d) by (by replace (N.of_nat r + 1) with (N.of_nat (S r)) by lia).
      apply node_child in Hd' as [_ Hd']. apply node_iff in Hd'. lia. }
    rewrite fmap_cons. cbn [undo_rehash]. rewrite F_ReHash_at by done. cbn [bind].
    remember (setcell f (S r) d (H (G f r (2 * d)) (G f r (2 * d + 1)))) as f1 eqn:Ef1.
    assert (Hc1 : cells_only f f1) by (rewrite Ef1; apply cells_only_setcell).
    assert (HG1 : forall r' i', G f1 r' i' = if decide (r' = S r /\ i' = d) then H (G f r (2 * d)) (G f r (2 * d + 1)) else G f r' i').
    { intros r' i'. rewrite Ef1. by apply G_setcell. }
    destruct (F_Parent_ok H n (N.of_nat (S r)) d Hn Hd) as [Hpar1 Hpar2].
    replace (N.of_nat (S r) + 1) with (N.of_nat (S (S r))) in * by lia.
    assert (Hacc : exists (p : option N) A1, F_Parent n (enc (NumRows n) (N.of_nat (S r)) d) = Ok p /\
         (match p with
          | None => enc (NumRows n) (N.of_nat (S (S r))) <$> A
          | Some x => match last (enc (NumRows n) (N.of_nat (S (S r))) <$> A) with
                      | Some b => if b =? x then enc (NumRows n) (N.of_nat (S (S r))) <$> A else (enc (NumRows n) (N.of_nat (S (S r))) <$> A) ++ [x]
                      | None => (enc (NumRows n) (N.of_nat (S (S r))) <$> A) ++ [x]
                      end
          end) = (enc (NumRows n) (N.of_nat (S (S r))) <$> A1) /\
         (forall x, x ∈ A -> x ∈ A1) /\ (forall x, x ∈ A1 -> x ∈ A \/ node n (N.of_nat (S (S r))) x) /\
         (node n (N.of_nat (S (S r))) (d / 2) -> d / 2 ∈ A1)).
    { destruct (decide (node n (N.of_nat (S (S r))) (d / 2))) as [Hx|Hx].
      - rewrite Hpar1 by done. eexists.
        assert (Hpush : exists A1, (enc (NumRows n) (N.of_nat (S (S r))) <$> A) ++ [enc (NumRows n) (N.of_nat (S (S r))) (d / 2)]
             = (enc (NumRows n) (N.of_nat (S (S r))) <$> A1) /\
           (forall x, x ∈ A -> x ∈ A1) /\ (forall x, x ∈ A1 -> x ∈ A \/ node n (N.of_nat (S (S r))) x) /\
           (node n (N.of_nat (S (S r))) (d / 2) -> d / 2 ∈ A1)).
        { exists (A ++ [d / 2]). rewrite fmap_app. split; [done|].
          split; [intros x Hx'; apply elem_of_app; by left|]. split; [|intros _; apply elem_of_app; right; by left].
          intros x [Hx'|Hx']%elem_of_app; [by left|]. apply elem_of_list_singleton in Hx' as ->. by right. }
        destruct (last (enc (NumRows n) (N.of_nat (S (S r))) <$> A)) as [b|] eqn:El.
        + destruct (N.eqb_spec b (enc (NumRows n) (N.of_nat (S (S r))) (d / 2))) as [E|E].
          * exists A. split; [done|]. cbn iota. rewrite E, N.eqb_refl. split; [done|]. split; [done|]. split; [by left|]. intros _.
            rewrite fmap_last in El. destruct (last A) as [x|] eqn:El2; [|done]. cbn in El. apply (inj Some) in El.
            rewrite E in El. apply enc_inj1 in El. rewrite <- El. by apply last_Some_elem_of.
          * destruct Hpush as (A1 & E1 & Hr). exists A1. split; [done|]. cbn iota.
            destruct (N.eqb_spec b (enc (NumRows n) (N.of_nat (S (S r))) (d / 2))); [done|]. done.
        + destruct Hpush as (A1 & E1 & Hr). exists A1. split; [done|]. done.
      - rewrite Hpar2 by done. exists None, A. split; [done|]. split; [done|]. split; [done|]. split; [by left|done]. }
    destruct Hacc as (p & A1 & EP & EA & HA1 & HA2 & HA3). rewrite EP. cbn [bind]. rewrite EA.
    destruct (IH ltac:(intros x Hx; apply HD; by right) f1 A1) as (f' & A' & E & Hc & HG & HGd & HA4 & HA5 & HA6).
    { by rewrite (cells_only_n _ _ Hc1). } { by rewrite (cells_only_len _ _ _ Hc1). } { by rewrite (cells_only_len _ _ _ Hc1). }
    exists f', A'. split; [exact E|]. split; [by eapply cells_only_trans|].
    split; [|split; [|split; [|split]]].
    + intros r' i Hri. rewrite not_elem_of_cons in Hri. rewrite HG by tauto. rewrite HG1.
      destruct (decide (r' = S r /\ i = d)) as [[-> ->]|]; [tauto|done].
    + intros i Hi. destruct (decide (i ∈ D)) as [Hi'|Hi'].
      * rewrite HGd by done. rewrite !HG1. destruct (decide _) as [[? _]|_]; [lia|]. destruct (decide _) as [[? _]|_]; [lia|done].
      * rewrite HG by (by right). rewrite HG1. apply elem_of_cons in Hi as [->|]; [|done].
        destruct (decide _) as [_|Hno]; [done|]. by destruct Hno.
    + auto.
    + intros x [Hx|Hx]%HA5; [by apply HA2|by right].
    + intros x [->|Hx]%elem_of_cons Hnx; [by apply HA4, HA3|by apply HA6].
Qed.

Lemma undo_rows_ok ls n k : n <= 2 ^ 62 -> forall r f D, (r + k)%nat = N.to_nat (NumRows n) -> f_n f = n ->
  NumRows n < size (f_data f) ->
  (forall r', (r' <= r)%nat -> n / 2 ^ N.of_nat r' <= len f r') -> (forall r', len f r' < two64) ->
  (forall d, d ∈ D -> node n (N.of_nat (S r)) d) ->
  (forall r' i, (r' <= r)%nat -> node n (N.of_nat r') i -> G f r' i = nh H (leaf_at ls) r' i) ->
  (forall r' i, (r < r')%nat -> node n (N.of_nat r') i ->
     (i < len f r' /\ G f r' i = nh H (leaf_at ls) r' i) \/ exists d, d ∈ D /\ d / 2 ^ N.of_nat (r' - S r) = i) ->
  exists f', undo_rows H k (N.of_nat (S r)) n f (enc (NumRows n) (N.of_nat (S r)) <$> D) = Ok f' /\
    f_n f' = n /\ f_posmap f' = f_posmap f /\ size (f_data f') = size (f_data f) /\ wide f' n /\
    (forall i, G f' 0 i = G f 0 i) /\ forall r i, node n (N.of_nat r) i -> G f' r i = nh H (leaf_at ls) r i.
Proof.
  intros Hn. pose proof (R62 _ Hn) as HR62. induction k as [|k IH]; intros r f D Hk Hfn Hrows Hlen H64 HD Hlo Hhi.
  - exists f. cbn [undo_rows]. split; [done|]. split; [done|]. split; [done|]. split; [done|].
    assert (Hup : forall r', (r < r')%nat -> n / 2 ^ N.of_nat r' = 0).
    { intros r' Hr'. apply N.div_small. pose proof (NumRows_bound n).
      assert (2 ^ NumRows n < 2 ^ N.of_nat r') by (apply pow_lt; lia). lia. }
    split; [|split; [done|]].
    + split; [done|]. intros r'. split; [|done]. destruct (decide (r' <= r)%nat) as [Hr'|Hr']; [by apply Hlen|].
      rewrite Hup by lia. lia.
    + intros r' i Hi. destruct (decide (r' <= r)%nat) as [Hr'|Hr']; [by apply Hlo|]. apply node_iff in Hi. rewrite Hup in Hi by lia. lia.
  - cbn [undo_rows]. rewrite vec_get_ok by lia. cbn [bind]. rewrite shr64_div by lia. cbn [bind].
    rewrite vec_set_ok by lia. cbn [bind]. rewrite Nat2N.id, Hfn.
    remember (set_data f (<[S r := vec_resize (f_data f !!! S r) (n / 2 ^ N.of_nat (S r)) zero_hash]> (f_data f))) as f1 eqn:Ef1.
    assert (Hd1 : forall r', f_data f1 !!! r' = if decide (r' = S r) then vec_resize (f_data f !!! S r) (n / 2 ^ N.of_nat (S r)) zero_hash else f_data f !!! r').
    { intros r'. rewrite Ef1. cbn [f_data set_data]. apply insert_total. lia. }
    assert (Hl1 : forall r', len f1 r' = if decide (r' = S r) then n / 2 ^ N.of_nat (S r) else len f r').
    { intros r'. unfold len. rewrite Hd1. destruct (decide _); [apply vec_resize_size|done]. }
    assert (HG1 : forall r' i, r' <> S r -> G f1 r' i = G f r' i).
    { intros r' i Hr'. unfold G. rewrite Hd1. by destruct (decide _). }
    assert (HG1' : forall i, i < n / 2 ^ N.of_nat (S r) -> i < len f (S r) -> G f1 (S r) i = G f (S r) i).
    { intros i Hi Hi'. unfold G. rewrite Hd1, decide_True by done. apply vec_resize_total; rewrite N2Nat.id; done. }
    assert (Hs1 : size (f_data f1) = size (f_data f)) by (rewrite Ef1; cbn [f_data set_data]; apply size_insert).
    destruct (undo_rehash_ok n r D Hn HD f1 []) as (f2 & D2 & E2 & Hc2 & HG2 & HG2d & _ & HD2 & HD2').
    { by rewrite Ef1. }
    { rewrite Hl1, decide_True by done. lia. }
    { rewrite Hl1, decide_False by lia. apply Hlen. lia. }
    change (enc (NumRows n) (N.of_nat (S (S r))) <$> []) with (@nil N) in E2. rewrite E2. cbn [bind fst snd].
    destruct (IH (S r) f2 D2) as (f' & E & Hn' & Hp' & Hs' & Hw' & HG0 & HG').
    { lia. }
    { rewrite (cells_only_n _ _ Hc2). by rewrite Ef1. }
    { rewrite (cells_only_rows _ _ Hc2). by rewrite Hs1. }
    { intros r' Hr'. rewrite (cells_only_len _ _ _ Hc2), Hl1. destruct (decide (r' = S r)) as [->|]; [lia|]. apply Hlen. lia. }
    { intros r'. rewrite (cells_only_len _ _ _ Hc2), Hl1. destruct (decide (r' = S r)) as [->|]; [|done].
      assert (n / 2 ^ N.of_nat (S r) <= n) by (apply N.div_le_upper_bound; [pose proof (pow_pos (N.of_nat (S r))); lia|pose proof (pow_pos (N.of_nat (S r))); nia]).
      assert (2 ^ 62 < two64) by done. lia. }
    { intros d [?%elem_of_nil|Hd]%HD2; done. }
    { intros r' i Hr' Hi. destruct (decide (r' = S r)) as [->|Hne].
      - destruct (decide (i ∈ D)) as [Hin|Hin].
        + rewrite HG2d by done. cbn [nh]. assert (Hi' : node n (N.of_nat r + 1) i) by (by replace (N.of_nat r + 1) with (N.of_nat (S r)) by lia).
          destruct (node_child _ _ _ Hi') as [Hc0 Hc1]. rewrite !HG1 by lia. rewrite !Hlo by (done || lia). done.
        + rewrite HG2 by (by right). destruct (Hhi (S r) i ltac:(lia) Hi) as [[Hil HGi]|(d & Hd & Hdi)].
          * rewrite HG1'; [done| |done]. by apply node_iff.
          * rewrite Nat.sub_diag in Hdi. change (2 ^ N.of_nat 0) with 1 in Hdi. rewrite N.div_1_r in Hdi. congruence.
      - rewrite HG2 by (left; lia). rewrite HG1 by lia. apply Hlo; [lia|done]. }
    { intros r' i Hr' Hi. destruct (Hhi r' i ltac:(lia) Hi) as [[Hil HGi]|(d & Hd & Hdi)].
      - left. rewrite (cells_only_len _ _ _ Hc2), Hl1, decide_False by lia. split; [done|]. rewrite HG2 by (left; lia). rewrite HG1 by lia. done.
      - right. exists (d / 2). replace (r' - S r)%nat with (S (r' - S (S r))) in Hdi by lia. rewrite pow_nat_S in Hdi.
        pose proof (pow_pos (N.of_nat (r' - S (S r)))) as HP.
        rewrite <- N.div_div in Hdi by lia. split; [|done].
        apply HD2'; [done|]. rewrite <- Hdi in Hi.
        replace (N.of_nat r') with (N.of_nat (S (S r)) + N.of_nat (r' - S (S r))) in Hi by lia.
        pose proof (node_down _ _ _ _ (d / 2 mod 2 ^ N.of_nat (r' - S (S r))) Hi ltac:(apply N.mod_lt; lia)) as Hnd.
        rewrite N.mul_comm, <- N.div_mod in Hnd by lia. done. }
    rewrite <- Nat2N.inj_succ in E || idtac. replace (N.of_nat (S r) + 1) with (N.of_nat (S (S r))) by lia.
    exists f'. split; [exact E|]. split; [done|]. split.
    { rewrite Hp', (cells_only_posmap _ _ Hc2). by rewrite Ef1. }
    split; [rewrite Hs', (cells_only_rows _ _ Hc2); done|]. split; [done|]. split; [|done].
    intros i. rewrite HG0, HG2 by (left; lia). apply HG1. lia.
Qed.

Lemma F_RestoreRoots_ok f n : wide f n -> n <= 2 ^ 62 ->
  exists rs, F_RestoreRoots f = Ok (set_roots f rs) /\ rn_hash <$> rs = (λ t : N * N, G f (N.to_nat t.1) t.2) <$> trees n.
Proof.
  intros Hw Hn. pose proof Hw as [Hfn Hlen]. unfold F_RestoreRoots. rewrite Hfn, RootPositions_ok by done. cbn [bind]. fold (trees n).
  assert (HR : forall t, t ∈ trees n -> F_Read f (enc (NumRows n) t.1 t.2) = Ok (G f (N.to_nat t.1) t.2)).
  { intros t Ht. apply trees_node in Ht as [Ht _]. pose proof (F_Read_ok f (N.to_nat t.1) t.2) as HR. rewrite N2Nat.id, Hfn in HR.
    apply HR; [done|by apply node_slot|]. eapply wide_node; [done|]. by rewrite N2Nat.id. }
  rewrite (mapM_ok _ (λ p, RNode (match F_Read f p with Ok h => h | _ => 0 end) n p)).
  - cbn [bind]. eexists. split; [done|]. rewrite <- !list_fmap_compose. apply list_fmap_ext.
    intros k t Ht%elem_of_list_lookup_2. unfold compose. cbn [rn_hash]. by rewrite HR.
  - intros p (t & -> & Ht)%elem_of_list_fmap. by rewrite HR.
Qed.

Lemma swt_lt n c a b x : node n (N.of_nat c) a -> node n (N.of_nat c) b -> x < n -> swt c a b 0 x < n.
Proof.
  unfold node. intros Ha Hb Hx. rewrite swt_lift, Nat.sub_0_r by lia. unfold lift, sw. pose proof (pow_pos (N.of_nat c)) as HP.
  remember (2 ^ N.of_nat c) as P eqn:EP. clear EP. pose proof (N.mod_lt x P ltac:(lia)).
  destruct (x / P =? a); [nia|]. destruct (x / P =? b); [nia|]. rewrite N.mul_comm, <- N.div_mod by lia. done.
Qed.
Lemma lact_lt n (es : list nswap) x : (forall s, s ∈ es -> good_swap n s) -> x < n -> lact es x < n.
Proof.
  revert x. induction es as [|s es IH]; intros x Hg Hx; [done|]. unfold lact in *. cbn [fold_left]. apply IH.
  - intros s' Hs'. apply Hg. by right.
  - destruct (Hg s ltac:(left)) as (H1 & H2 & _). by apply swt_lt.
Qed.

Lemma Transform_nil n : Transform n [] = Ok [].
Proof. unfold Transform. destruct (N.to_nat (NumRows n)); done. Qed.
Lemma undo_swaps_exist n L0 : n <= 2 ^ 62 -> size L0 = n ->
  exists es : list nswap, UndoTransform n (dead 0 L0) = Ok (lf_of <$> es) /\ (forall s, s ∈ es -> good_swap n s) /\
    forall x, lact es x = rowsact n L0 (N.to_nat (NumRows n)) 0 x.
Proof.
  intros Hn HL. destruct (decide (dead 0 L0 = [])) as [Hd|Hd].
  - exists []. split; [|split].
    + rewrite Hd. unfold UndoTransform. by rewrite Transform_nil.
    + by intros s ?%elem_of_nil.
    + intros x. by rewrite (rowsact_full n L0 0).
  - destruct (Transform_ok n L0 Hn HL Hd) as (h & Hh & Hdd & He & Ht). exists (all_swaps n L0 0 h).
    split; [by apply UndoTransform_ok|]. split; [by apply all_swaps_good|]. intros x. by apply lact_all.
Qed.

(** Undoing on a forest with leaves [ls1 ++ as_]. *)
Lemma F_Undo_ok f ls0 ls1 as_ hs ts L0 n0 :
  inv H f (ls1 ++ as_) -> size (ls1 ++ as_) <= 2 ^ 61 -> n0 <= int_max ->
  size ls0 = n0 -> size ls1 + size ts = n0 -> size hs = size ts -> NoDup (ls1 ++ hs) ->
  size L0 = n0 -> dead 0 L0 = ts ->
  (forall x, x < n0 -> leaf_at (ls1 ++ hs) (rowsact n0 L0 (N.to_nat (NumRows n0)) 0 x) = leaf_at ls0 x) ->
  NumRows n0 < size (f_data f) ->
  exists f', F_Undo H f (UndoBatch (size as_) ts hs) = Ok (true, f') /\ inv H f' ls0 /\ size (f_data f') = size (f_data f).
Proof.
  intros [Hw Hnode Hp Hroots _] Hn2 Hn0 Hls0 Hls1 Hhs Hnd HL0 Hts Hrho Hrows.
  assert (H61 : 2 ^ 61 + 2 ^ 61 = 2 ^ 62) by done. assert (H64 : 2 ^ 62 + 2 ^ 62 < two64) by done. assert (Hmax : int_max <= 2 ^ 61) by done.
  remember (size ls1) as n1 eqn:En1. remember (size as_) as k eqn:Ek.
  assert (Hsz : size (ls1 ++ as_) = n1 + k) by (unfold size in *; rewrite app_length; lia). rewrite Hsz in *.
  pose proof Hw as [Hfn Hlen].
  unfold F_Undo. cbn [m_num_additions m_deleted_positions m_deleted_hashes].
  destruct (N.eqb_spec (size (f_data f)) 0); [lia|]. rewrite Hfn.
  rewrite add64_small by lia. rewrite !sub64_small by lia.
  replace (n1 + k + size ts - k) with n0 by lia. replace (n1 + k - k) with n1 by lia. replace (n1 + k - n1) with k by lia.
  destruct (undo_swaps_exist n0 L0 ltac:(lia) HL0) as (es & Eu & Hgood & Hact). rewrite Hts in Eu. rewrite Eu. cbn [bind].
  destruct (undo_erase_ok f (n1 + k) k Hw ltac:(lia) (posmap_inj _ _ Hp) n1 (f_posmap f) ltac:(lia)) as (m & Em & Hm).
  { intros p Hpr E. assert (E2 := proj2 (Hp (G f 0 p) p) ltac:(split; [lia|done])). congruence. }
  rewrite Em. cbn [bind fst snd negb].
  assert (HG0 : forall x, x < n1 + k -> G f 0 x = leaf_at (ls1 ++ as_) x).
  { intros x Hx. rewrite Hnode; [done|]. unfold node. change (2 ^ N.of_nat 0) with 1. lia. }
  assert (Hpm1 : pm_inv m ls1).
  { intros h p. rewrite Hm, <- leaf_at_lookup, <- En1. pose proof (posmap_inj _ _ Hp) as Hinj.
    destruct (decide (h ∈ G f 0 <$> nseq n1 k)) as [Hin|Hin].
    - split; [done|]. intros [Hlt E]. apply elem_of_list_fmap in Hin as (q & Eq & Hq%nseq_elem).
      rewrite <- (leaf_at_app1 H ls1 as_) in E by lia. rewrite <- HG0 in E by lia. rewrite Eq in E. apply Hinj in E; lia.
    - rewrite (Hp h p). split.
      + intros [Hlt E]. destruct (N.lt_ge_cases p n1) as [Hp1|Hp1].
        * split; [done|]. rewrite HG0, (leaf_at_app1 H) in E by lia. done.
        * destruct Hin. apply elem_of_list_fmap. exists p. split; [done|]. apply nseq_elem. lia.
      + intros [Hlt E]. split; [lia|]. rewrite HG0, (leaf_at_app1 H) by lia. done. }
  rewrite vec_get_ok by lia. cbn [bind]. change (N.to_nat 0) with 0%nat. rewrite int_loop_ok by lia. cbn [bind].
  destruct (undo_place_ok n1 hs 0 (vec_resize (f_data f !!! 0%nat) n0 zero_hash) m []) as (row0 & Ep & Hr0 & Hr1 & Hr2).
  { rewrite vec_resize_size. lia. }
  { rewrite vec_resize_size. lia. }
  { by apply NoDup_app in Hnd as (_ & _ & ?). }
  { intros h Hh. destruct (m !! h) as [p|] eqn:E; [|done]. apply Hpm1 in E. apply elem_of_list_lookup_2 in E.
    apply NoDup_app in Hnd as (_ & Hx & _). by destruct (Hx h E). }
  rewrite vec_resize_size in Hr0. rewrite N.add_0_r in Ep, Hr1, Hr2.
  rewrite Ep. cbn [bind]. rewrite vec_set_ok by lia. cbn [bind negb]. change (N.to_nat 0) with 0%nat. rewrite app_nil_l.
  remember (Forest n0 (<[0%nat := row0]> (f_data f)) (f_roots f) (add_pos m n1 hs)) as f1 eqn:Ef1.
  assert (Hd1 : forall r, f_data f1 !!! r = if decide (r = 0%nat) then row0 else f_data f !!! r).
  { intros r. rewrite Ef1. cbn [f_data]. apply insert_total. change (N.of_nat 0) with 0. lia. }
  assert (Hl1 : forall r, len f1 r = if decide (r = 0%nat) then n0 else len f r).
  { intros r. unfold len. rewrite Hd1. by destruct (decide _). }
  assert (HG1 : forall r i, r <> 0%nat -> G f1 r i = G f r i).
  { intros r i Hr. unfold G. rewrite Hd1. by destruct (decide _). }
  assert (HszP : size (ls1 ++ hs) = n0) by (unfold size in *; rewrite app_length; lia).
  assert (HG10 : forall x, x < n0 -> G f1 0 x = leaf_at (ls1 ++ hs) x).
  { intros x Hx. unfold G. rewrite Hd1. rewrite decide_True by done. destruct (N.lt_ge_cases x n1) as [Hx1|Hx1].
    - rewrite Hr1 by done. rewrite vec_resize_total.
      + rewrite (leaf_at_app1 H) by lia. change ((f_data f !!! 0%nat) !!! N.to_nat x) with (G f 0 x). rewrite HG0, (leaf_at_app1 H) by lia. done.
      + lia.
      + apply wide_len0 in Hw. unfold len in Hw. lia.
    - replace x with (n1 + (x - n1)) by lia. rewrite Hr2 by lia. rewrite En1, (leaf_at_app2 H). done. }
  assert (Hp1 : posmap_inv f1 n0).
  { rewrite <- HszP. apply posmap_pm; [by rewrite HszP|]. rewrite Ef1. cbn [f_posmap]. rewrite En1. by apply pm_add. }
  destruct (undo_swaps_ok n0 (rev es) ltac:(lia)) with (f := f1) (dirt := nseq n1 (size hs))
    as (f2 & dirt & E2 & (Hn2' & Hro2 & Hsd2 & Hln2) & Hp2 & HG2 & HG2r & Hdirt).
  { intros s Hs. apply Hgood. by rewrite elem_of_list_In, <- in_rev, <- elem_of_list_In in Hs. }
  { by rewrite Ef1. }
  { rewrite Hl1, decide_True by done. lia. }
  { rewrite Hl1, decide_True by done. lia. }
  { done. }
  rewrite fmap_rev in E2 || (rewrite <- map_rev in E2 || idtac).
  assert (Erev : rev (lf_of <$> es) = lf_of <$> rev es) by (symmetry; apply map_rev).
  rewrite Erev, E2. cbn [bind fst snd]. rewrite rev_involutive in HG2.
  assert (Hdlt : forall p, p ∈ dirt -> p < n0).
  { intros p [Hpr%nseq_elem|(s & Hs & Hmv)]%Hdirt; [lia|].
    assert (Hs' : s ∈ es) by (by rewrite elem_of_list_In, <- in_rev, <- elem_of_list_In in Hs).
    destruct (Hgood s Hs') as (H1 & H2 & _). unfold moves in Hmv. unfold node in H1, H2.
    pose proof (pow_pos (N.of_nat s.1.1)) as HP. destruct Hmv as [Hmv|Hmv]; apply div_range in Hmv; lia. }
  assert (Hstill : forall p, p < n0 -> p ∉ dirt -> p < n1 /\ leaf_at ls0 p = leaf_at ls1 p).
  { intros p Hpn Hpd. assert (Hp1' : p < n1).
    { destruct (N.lt_ge_cases p n1); [done|]. destruct Hpd. apply Hdirt. left. apply nseq_elem. lia. }
    split; [done|]. rewrite <- Hrho by done. rewrite <- Hact, lact_still.
    - rewrite (leaf_at_app1 H) by lia. done.
    - intros s Hs Hmv. apply Hpd, Hdirt. right. exists s. split; [|done]. by rewrite elem_of_list_In, <- in_rev, <- elem_of_list_In. }
  assert (Hps : forall p, p ∈ dedup_sorted (sortN dirt) -> p < n0) by (intros p Hpd; by apply Hdlt, dirt_list_elem).
  destruct (undo_first_dirt_ok n0 (dedup_sorted (sortN dirt)) ltac:(lia) Hps []) as (D & ED & _ & HD1 & HD2).
  change (enc (NumRows n0) 1 <$> []) with (@nil N) in ED. rewrite ED. cbn [bind].
  assert (HG20 : forall x, x < n0 -> G f2 0 x = leaf_at ls0 x).
  { intros x Hx. rewrite HG2. rewrite HG10 by (by apply lact_lt). rewrite Hact. by apply Hrho. }
  destruct (undo_rows_ok ls0 n0 (N.to_nat (NumRows n0)) ltac:(lia) 0 f2 D) as (f3 & E3 & Hn3 & Hpm3 & Hsd3 & Hw3 & HG30 & HG3).
  { done. }
  { rewrite Hn2'. by rewrite Ef1. }
  { rewrite Hsd2, Ef1. cbn [f_data]. rewrite size_insert. done. }
  { intros r' Hr'. assert (r' = 0%nat) as -> by lia. rewrite Hln2, Hl1, decide_True by done. change (2 ^ N.of_nat 0) with 1. rewrite N.div_1_r. lia. }
  { intros r'. rewrite Hln2, Hl1. destruct (decide _); [lia|]. by destruct (Hlen r'). }
  { intros d Hd. destruct (HD1 d Hd) as [?%elem_of_nil|Hd']; done. }
  { intros r' i Hr' Hi. assert (r' = 0%nat) as -> by lia. cbn [nh]. apply HG20. unfold node in Hi. change (2 ^ N.of_nat 0) with 1 in Hi. lia. }
  { intros r' i Hr' Hi. pose proof (pow_pos (N.of_nat r')) as HP.
    destruct (decide (Exists (λ p, p / 2 ^ N.of_nat r' = i) dirt)) as [Hex|Hex].
    - right. apply Exists_exists in Hex as (p & Hpd & Hpi). exists (p / 2).
      replace r' with (S (r' - 1)) in Hpi by lia. rewrite pow_nat_S in Hpi. pose proof (pow_pos (N.of_nat (r' - 1))) as HP1.
      rewrite <- N.div_div in Hpi by lia. split; [|exact Hpi]. apply HD2; [by apply dirt_list_elem|].
      rewrite <- Hpi in Hi. replace (N.of_nat r') with (1 + N.of_nat (r' - 1)) in Hi by lia.
      pose proof (node_down _ _ _ _ (p / 2 mod 2 ^ N.of_nat (r' - 1)) Hi ltac:(apply N.mod_lt; lia)) as Hx.
      rewrite N.mul_comm, <- N.div_mod in Hx by lia. done.
    - left. assert (Hcl : forall p, i * 2 ^ N.of_nat r' <= p < (i + 1) * 2 ^ N.of_nat r' -> p < n1 /\ leaf_at ls0 p = leaf_at ls1 p).
      { intros p Hpr. apply Hstill.
        - unfold node in Hi. lia.
        - intros Hpd. apply Hex, Exists_exists. exists p. split; [done|]. apply div_range; lia. }
      assert (Hi1 : node n1 (N.of_nat r') i).
      { unfold node. destruct (Hcl ((i + 1) * 2 ^ N.of_nat r' - 1)) as [Hx _]; [lia|]. lia. }
      assert (Hi2 : node (n1 + k) (N.of_nat r') i) by (unfold node in *; lia).
      rewrite Hln2, Hl1, decide_False by lia. split; [by eapply wide_node|].
      rewrite HG2r, HG1 by lia. rewrite Hnode by done. apply nh_ext. intros p Hpr. destruct (Hcl p Hpr) as [Hx1 ->].
      apply (leaf_at_app1 H). lia. }
  change (N.of_nat 1) with 1 in E3. rewrite E3. cbn [bind].
  destruct (F_RestoreRoots_ok f3 n0 Hw3 ltac:(lia)) as (rs & Er & Hrs). rewrite Er. cbn [bind].
  exists (set_roots f3 rs). split; [done|].
  assert (Hdat : size (f_data f3) = size (f_data f)).
  { rewrite Hsd3, Hsd2, Ef1. cbn [f_data]. apply size_insert. }
  split; [|done]. split; rewrite ?Hls0.
  - exact Hw3.
  - exact HG3.
  - eapply posmap_inv_ext; [| |exact Hp2].
    + cbn [f_posmap set_roots]. done.
    + intros i _. exact (HG30 i).
  - unfold F_Roots. cbn [f_roots set_roots]. rewrite Hrs. unfold spec_roots. rewrite Hls0. apply list_fmap_ext.
    intros j t Ht%elem_of_list_lookup_2. apply HG3. rewrite N2Nat.id. by apply trees_node.
  - cbn [f_data set_roots]. by rewrite Hdat.
Qed.
End Undo.
