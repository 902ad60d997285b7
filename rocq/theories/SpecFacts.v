(** * SpecFacts: the deletion rule keeps exactly the surviving leaves (proofs) *)
From stdpp Require Import sorting.
From Verif Require Import Base PosSpec MerkleSpec ForestFacts RowFacts.
From Coq Require Import ZifyBool ZifyNat ZifyN.
Ltac Zify.zify_post_hook ::= idtac.
Ltac dlia := zify; Z.div_mod_to_equations; lia.

(** ** Contents of rows *)
Definition flat (L : list (option chunk)) : list N := mjoin (omap id L).
Definition pflat (ps : list (option chunk * option chunk)) : list N :=
  mjoin ((λ p : option chunk * option chunk, default [] p.1 ++ default [] p.2) <$> ps).
Definition nr (root : option chunk) (s : list chunk) : option chunk :=
  if Nat.even (length s) then root else match root with Some _ => None | None => last s end.

Notation cnt l x := (count_occ N.eq_dec l x) (only parsing).
Lemma perm_cnt (l k : list N) : (forall x, cnt l x = cnt k x) -> l ≡ₚ k.
Proof. apply (Permutation_count_occ N.eq_dec). Qed.

Lemma flat_cons c L : flat (c :: L) = default [] c ++ flat L.
Proof. unfold flat. destruct c; done. Qed.
Lemma pflat_cons p ps : pflat (p :: ps) = default [] p.1 ++ default [] p.2 ++ pflat ps.
Proof. unfold pflat. rewrite fmap_cons. cbn [mjoin list_join]. by rewrite <- app_assoc. Qed.
Lemma nr_two root x d s : nr root (x :: d :: s) = nr root s.
Proof. unfold nr. cbn [length Nat.even]. destruct (Nat.even (length s)) eqn:E; [done|]. destruct s; [done|]. done. Qed.

Lemma refill_flat root ps y :
  (cnt (flat (refill false root ps)) y + cnt (default [] (nr root (omap survivor ps))) y =
   cnt (pflat ps) y + cnt (default [] root) y)%nat /\
  match omap survivor ps with
  | [] => cnt (flat (refill true root ps)) y = cnt (pflat ps) y
  | d :: s => (cnt (flat (refill true root ps)) y + cnt d y + cnt (default [] (nr root s)) y =
               cnt (pflat ps) y + cnt (default [] root) y)%nat
  end.
Proof.
  induction ps as [|p ps [IHA IHB]]; [split; [|done]; unfold nr; cbn; lia|].
  cbn [refill]. change (omap survivor (p :: ps)) with
    (match survivor p with Some x => x :: omap survivor ps | None => omap survivor ps end).
  destruct (survivor p) as [x|] eqn:Es.
  - split.
    + rewrite flat_cons, pflat_cons, !count_occ_app. destruct (omap survivor ps) as [|d s] eqn:Eo; cbn [head].
      * destruct p as [[a|] [b|]]; cbn [survivor] in Es; try done; injection Es as ->; destruct root as [r|];
          cbn [fst snd default from_option id nr length Nat.even last]; rewrite ?count_occ_app; cbn [count_occ]; lia.
      * rewrite nr_two. destruct p as [[a|] [b|]]; cbn [survivor] in Es; try done; injection Es as ->;
          cbn [fst snd default from_option id]; rewrite ?count_occ_app; cbn [count_occ]; lia.
    + rewrite flat_cons, pflat_cons, !count_occ_app. 
      destruct p as [[a|] [b|]]; cbn [survivor] in Es; try done; injection Es as ->;
          cbn [fst snd default from_option id]; rewrite ?count_occ_app; cbn [count_occ]; lia.
  - split.
    + rewrite flat_cons, pflat_cons, !count_occ_app.
      destruct p as [[a|] [b|]]; cbn [survivor] in Es; try done;
          cbn [fst snd default from_option id]; rewrite ?count_occ_app; cbn [count_occ]; lia.
    + rewrite flat_cons, pflat_cons, !count_occ_app. destruct (omap survivor ps) as [|d s] eqn:Eo;
      destruct p as [[a|] [b|]]; cbn [survivor] in Es; try done;
          cbn [fst snd default from_option id]; rewrite ?count_occ_app; cbn [count_occ]; lia.
Qed.

Lemma flat_pair_up L : flat L = pflat (pair_up L).1 ++ default [] (row_root L).
Proof.
  unfold row_root. induction L as [|a|a b L IH] using pair_up_ind; [done|..].
  - rewrite flat_cons. destruct a; [|done]. cbn. by rewrite app_nil_r.
  - rewrite !flat_cons. cbn [pair_up fst snd]. rewrite pflat_cons, IH. cbn [fst snd]. by rewrite <- !app_assoc.
Qed.

Lemma remove_rows_perm m : forall L, size L < 2 ^ N.of_nat m -> remove_rows m L ≡ₚ flat L.
Proof.
  induction m as [|m IH]; intros L HL.
  - change (2 ^ N.of_nat 0) with 1 in HL. destruct L; [done|]. unfold size in HL. cbn [length] in HL. lia.
  - cbn [remove_rows]. rewrite IH.
    + apply perm_cnt. intros y. rewrite (flat_pair_up L), !count_occ_app.
      destruct (refill_flat (row_root L) (pair_up L).1 y) as [Hr _]. exact Hr.
    + rewrite next_row_size. rewrite pow_nat_S in HL. revert HL. generalize (2 ^ N.of_nat m). intros P HL. dlia.
Qed.

Lemma refill_full root ps : (forall p, p ∈ ps -> exists a b, p = (Some a, Some b)) ->
  flat (refill false root ps) = pflat ps /\ omap survivor ps = [].
Proof.
  induction ps as [|p ps IH]; intros Hp; [done|]. destruct (Hp p) as (a & b & ->); [left|].
  destruct IH as [IH1 IH2]; [intros q Hq; apply Hp; by right|]. split; [|done].
  cbn [refill survivor]. rewrite flat_cons, pflat_cons, IH1. cbn. by rewrite <- app_assoc.
Qed.
Lemma remove_rows_full m : forall L, size L < 2 ^ N.of_nat m -> dead 0 L = [] -> remove_rows m L = flat L.
Proof.
  induction m as [|m IH]; intros L HL Hd.
  - change (2 ^ N.of_nat 0) with 1 in HL. destruct L; [done|]. unfold size in HL. cbn [length] in HL. lia.
  - cbn [remove_rows]. rewrite IH.
    + rewrite (flat_pair_up L). unfold next_row, new_root.
      destruct (refill_full (row_root L) (pair_up L).1) as [-> ->]; [|done].
      intros [x y] [k Hk]%elem_of_list_lookup. apply pair_up_lookup in Hk as [H1 H2].
      destruct x as [a|]; [|by apply no_dead_alive in H1]. destruct y as [b|]; [|by apply no_dead_alive in H2]. eauto.
    + rewrite next_row_size. rewrite pow_nat_S in HL. revert HL. generalize (2 ^ N.of_nat m). intros P HL. dlia.
    + by destruct (full_row L Hd) as (_ & _ & ? & _).
Qed.

(** ** The leaf row *)
Lemma leaf_row_lookup ls ts i : leaf_row ls ts !! i =
  (λ h, if decide (N.of_nat i ∈ ts) then None else Some [h]) <$> ls !! i.
Proof. unfold leaf_row. by rewrite list_lookup_imap. Qed.
Lemma leaf_row_size ls ts : size (leaf_row ls ts) = size ls.
Proof. unfold size, leaf_row. by rewrite imap_length. Qed.

Lemma sorted_eq (l k : list N) : StronglySorted N.lt l -> StronglySorted N.lt k -> (forall x, x ∈ l <-> x ∈ k) -> l = k.
Proof.
  intros Hl. revert k. induction Hl as [|x l Hl IH Hx]; intros k Hk He.
  - destruct k as [|y k]; [done|]. specialize (He y). rewrite elem_of_nil, elem_of_cons in He. naive_solver.
  - destruct Hk as [|y k Hk Hy]; [specialize (He x); rewrite elem_of_nil, elem_of_cons in He; naive_solver|].
    rewrite Forall_forall in Hx, Hy.
    assert (x = y) as ->.
    { pose proof (proj1 (He x) ltac:(left)) as [->|H1]%elem_of_cons; [done|].
      pose proof (proj2 (He y) ltac:(left)) as [->|H2]%elem_of_cons; [done|]. specialize (Hx y H2). specialize (Hy x H1). lia. }
    f_equal. apply IH; [done|]. intros z. specialize (He z). rewrite !elem_of_cons in He.
    split; intros Hz.
    + destruct (proj1 He (or_intror Hz)) as [->|]; [|done]. specialize (Hx y Hz). lia.
    + destruct (proj2 He (or_intror Hz)) as [->|]; [|done]. specialize (Hy y Hz). lia.
Qed.

Lemma leaf_row_dead ls ts : valid_targets (size ls) ts -> dead 0 (leaf_row ls ts) = ts.
Proof.
  intros [Hs Hr]. apply sorted_eq; [by destruct (dead_sorted (leaf_row ls ts) 0)|done|].
  intros x. rewrite dead_elem, N.sub_0_r, leaf_row_lookup, N2Nat.id. split.
  - intros [_ Hx]. destruct (ls !! N.to_nat x); [|done]. cbn in Hx. destruct (decide (x ∈ ts)); done.
  - intros Hx. split; [lia|]. rewrite Forall_forall in Hr. specialize (Hr x Hx). unfold size in Hr.
    destruct (lookup_lt_is_Some_2 ls (N.to_nat x)) as [h ->]; [lia|]. cbn. by rewrite decide_True.
Qed.

Lemma leaf_row_flat ls ts : flat (leaf_row ls ts) = survivors ls ts.
Proof.
  unfold leaf_row, survivors.
  assert (Hg : forall (l : list N) (g : nat -> nat), flat (imap (fun i h => if decide (N.of_nat (g i) ∈ ts) then None else Some [h]) l) =
    omap (λ p : nat * N, if decide (N.of_nat p.1 ∈ ts) then None else Some p.2) (imap (fun i h => (g i, h)) l)).
  { induction l as [|x l IH]; intros g; [done|]. cbn [imap]. rewrite flat_cons. specialize (IH (g ∘ S)).
    change (imap ((λ i h, if decide (N.of_nat (g i) ∈ ts) then None else Some [h]) ∘ S) l)
      with (imap (λ i h, if decide (N.of_nat ((g ∘ S) i) ∈ ts) then None else Some [h]) l).
    change (imap ((λ i h, (g i, h)) ∘ S) l) with (imap (λ i h, ((g ∘ S) i, h)) l).
    rewrite IH. change ((λ (i : nat) (h : N), (g i, h)) 0%nat x) with (g 0%nat, x).
    cbn [omap list_omap fst snd]. destruct (decide (N.of_nat (g 0%nat) ∈ ts)); done. }
  exact (Hg ls id).
Qed.

Lemma pow_len {A} (l : list A) : size l < 2 ^ N.of_nat (S (length l)).
Proof. unfold size. pose proof (N.pow_gt_lin_r 2 (N.of_nat (S (length l))) ltac:(lia)). lia. Qed.

Lemma spec_remove_perm ls ts : spec_remove ls ts ≡ₚ survivors ls ts.
Proof.
  unfold spec_remove. rewrite remove_rows_perm; [by rewrite leaf_row_flat|]. rewrite leaf_row_size. apply pow_len.
Qed.
Lemma spec_remove_nil ls : spec_remove ls [] = ls.
Proof.
  unfold spec_remove. rewrite remove_rows_full.
  - unfold leaf_row. rewrite (imap_ext _ (fun _ h => Some [h])).
    + induction ls as [|x l IH]; [done|]. cbn [imap]. rewrite flat_cons.
      change (imap ((λ (_ : nat) (h : N), Some [h]) ∘ S) l) with (imap (λ (_ : nat) (h : N), Some [h]) l). by rewrite IH.
    + intros i x _. cbn beta. by rewrite decide_False by (apply not_elem_of_nil).
  - rewrite leaf_row_size. apply pow_len.
  - apply dead_alive. intros k. rewrite leaf_row_lookup. destruct (ls !! k); [|done]. cbn.
    by rewrite decide_False by (apply not_elem_of_nil).
Qed.
