(** * RowFacts: one row of a deletion, on indices (proofs) *)
From stdpp Require Import sorting.
From Verif Require Import Base StateModel PosSpec PosFacts PathFacts MerkleSpec ForestFacts.
From Coq Require Import ZifyBool ZifyNat ZifyN.
Ltac Zify.zify_post_hook ::= idtac.
Ltac dlia := zify; Z.div_mod_to_equations; lia.

Notation cell := (option chunk) (only parsing).
Notation cpair := (option chunk * option chunk)%type (only parsing).

(** ** Dead slots *)
Fixpoint dead (o : N) (L : list cell) : list N :=
  match L with
  | [] => []
  | x :: L' => (match x with None => [o] | Some _ => [] end) ++ dead (o + 1) L'
  end.
Fixpoint pdead (m : N) (ps : list cpair) : list N :=
  match ps with
  | [] => []
  | (x, y) :: ps' => (match x with None => [2 * m] | _ => [] end) ++
                     (match y with None => [2 * m + 1] | _ => [] end) ++ pdead (m + 1) ps'
  end.
(** The dead slot of every pair that lost exactly one. *)
Definition hole (m : N) (p : cpair) : option N :=
  match p with
  | (Some _, None) => Some (2 * m + 1)
  | (None, Some _) => Some (2 * m)
  | _ => None
  end.
Fixpoint singles (m : N) (ps : list cpair) : list N :=
  match ps with
  | [] => []
  | p :: ps' => match hole m p with Some t => t :: singles (m + 1) ps' | None => singles (m + 1) ps' end
  end.
(** Parents that are known to be dead: both slots dead, or second of a match. *)
Fixpoint nextdead (donor : bool) (m : N) (ps : list cpair) : list N :=
  match ps with
  | [] => []
  | p :: ps' =>
      match survivor p with
      | None => match p with (None, None) => m :: nextdead donor (m + 1) ps' | _ => nextdead donor (m + 1) ps' end
      | Some _ => if donor then m :: nextdead false (m + 1) ps' else nextdead true (m + 1) ps'
      end
  end.

Lemma pair_up_length {A} (l : list A) :
  length l = (2 * length (pair_up l).1 + match (pair_up l).2 with Some _ => 1 | None => 0 end)%nat.
Proof.
  enough (Hs : forall k (l : list A), (length l <= k)%nat ->
    length l = (2 * length (pair_up l).1 + match (pair_up l).2 with Some _ => 1 | None => 0 end)%nat) by (by eapply Hs).
  clear l. induction k as [|k IH]; intros l Hl; destruct l as [|a [|b l]]; cbn [pair_up fst snd length] in *; try lia.
  specialize (IH l ltac:(lia)). destruct (pair_up l).2; lia.
Qed.
Lemma pair_up_ind {A} (P : list A -> Prop) : P [] -> (forall a, P [a]) ->
  (forall a b l, P l -> P (a :: b :: l)) -> forall l, P l.
Proof.
  intros H0 H1 H2. enough (Hs : forall k l, (length l <= k)%nat -> P l) by (intros l; by eapply Hs).
  induction k as [|k IH]; intros l Hl; destruct l as [|a [|b l]]; cbn [length] in *; try done; try lia.
  apply H2, IH. lia.
Qed.

Lemma dead_pdead L : forall m, dead (2 * m) L =
  pdead m (pair_up L).1 ++ (match (pair_up L).2 with Some None => [2 * (m + N.of_nat (length (pair_up L).1))] | _ => [] end).
Proof.
  induction L as [|a|a b L IH] using pair_up_ind; intros m; cbn [pair_up fst snd dead pdead length app]; [done|..].
  - destruct a; cbn [app]; [done|]. f_equal. lia.
  - replace (2 * m + 1 + 1) with (2 * (m + 1)) by lia. rewrite IH. rewrite <- !app_assoc.
    do 3 f_equal. destruct (pair_up L).2 as [[|]|]; try done. f_equal. lia.
Qed.

Lemma dead_elem L : forall o i, i ∈ dead o L <-> o <= i /\ L !! N.to_nat (i - o) = Some None.
Proof.
  induction L as [|x L IH]; intros o i; cbn [dead].
  - rewrite elem_of_nil, lookup_nil. naive_solver.
  - rewrite elem_of_app, IH. split.
    + intros [Hx|[Hle Hl]].
      * destruct x; [by apply elem_of_nil in Hx|]. apply elem_of_list_singleton in Hx as ->.
        rewrite N.sub_diag. split; [lia|done].
      * split; [lia|]. replace (N.to_nat (i - o)) with (S (N.to_nat (i - (o + 1)))) by lia. done.
    + intros [Hle Hl]. destruct (N.to_nat (i - o)) as [|k] eqn:E.
      * left. cbn in Hl. injection Hl as ->. apply elem_of_list_singleton. lia.
      * right. split; [lia|]. replace (N.to_nat (i - (o + 1))) with k by lia. done.
Qed.
Lemma dead_sorted L : forall o, StronglySorted N.lt (dead o L) /\ Forall (fun i => o <= i < o + size L) (dead o L).
Proof.
  induction L as [|x L IH]; intros o; cbn [dead].
  - split; constructor.
  - destruct (IH (o + 1)) as [Hs Hf]. unfold size in *. cbn [length]. rewrite Forall_forall in Hf.
    destruct x; cbn [app].
    + split; [done|]. apply Forall_forall. intros i Hi%Hf. lia.
    + split; [constructor; [done|]; apply Forall_forall; intros i Hi%Hf; lia|].
      constructor; [lia|]. apply Forall_forall. intros i Hi%Hf. lia.
Qed.
Lemma dead_count L o : (length (dead o L) + length (omap id L) = length L)%nat.
Proof.
  revert o. induction L as [|x L IH]; intros o; cbn [dead omap list_omap length]; [done|].
  destruct x; cbn [app length id]; specialize (IH (o + 1)); unfold omap in *; lia.
Qed.

Lemma hole_survivor m p : (exists t, hole m p = Some t) <-> (exists a, survivor p = Some a).
Proof. destruct p as [[|] [|]]; cbn; naive_solver. Qed.
Lemma singles_length m ps : length (singles m ps) = length (omap survivor ps).
Proof.
  revert m. induction ps as [|p ps IH]; intros m; cbn [singles omap list_omap]; [done|].
  destruct p as [[a|] [b|]]; cbn [hole survivor length]; rewrite ?IH; done.
Qed.

(** ** The scan of the targets (ComputeNextRowTargets) *)
Section Scan.
Context (n : N) (Hn : n <= 2 ^ 62) (j : N) (Hj : j < NumRows n).
Notation R := (NumRows n).

Lemma slot_pair m : slot R (j + 1) m -> slot R j (2 * m) /\ slot R j (2 * m + 1).
Proof.
  intros [H1 H2]. assert (2 ^ (R - j) = 2 * 2 ^ (R - (j + 1))) as E.
  { rewrite <- pow_S. f_equal. lia. }
  split; (split; [lia|]); rewrite E; lia.
Qed.

Lemma pdead_ge m ps i : i ∈ pdead m ps -> 2 * m <= i.
Proof.
  revert m. induction ps as [|[x y] ps IH]; intros m; cbn [pdead]; [by intros ?%elem_of_nil|].
  rewrite !elem_of_app. intros [Hx|[Hy|Hz]].
  - destruct x; [by apply elem_of_nil in Hx|]. apply elem_of_list_singleton in Hx. lia.
  - destruct y; [by apply elem_of_nil in Hy|]. apply elem_of_list_singleton in Hy. lia.
  - apply IH in Hz. lia.
Qed.

Lemma cnrt_ok ps : forall m s, (forall k, k < size ps -> slot R (j + 1) (m + k)) ->
  cnrt_loop n (enc R j <$> pdead m ps) s =
    Ok (enc R (j + 1) <$> nextdead (Nat.odd s) m ps, enc R j <$> singles m ps).
Proof.
  induction ps as [|[x y] ps IH]; intros m s Hs; cbn [pdead singles nextdead].
  { done. }
  assert (Hsm : slot R (j + 1) m) by (rewrite <- (N.add_0_r m); apply Hs; unfold size; cbn [length]; lia).
  destruct (slot_pair _ Hsm) as [Hs0 Hs1].
  assert (Hs' : forall k, k < size ps -> slot R (j + 1) (m + 1 + k)).
  { intros k Hk. rewrite <- N.add_assoc. apply Hs. unfold size in *. cbn [length]. lia. }
  assert (Hp0 : Parent n (enc R j (2 * m)) = Ok (enc R (j + 1) m)).
  { rewrite Parent_ok by done. rewrite N.mul_comm, N.div_mul by done. done. }
  assert (Hp1 : Parent n (enc R j (2 * m + 1)) = Ok (enc R (j + 1) m)).
  { rewrite Parent_ok by done. do 3 f_equal. dlia. }
  assert (Hlone : forall t (l : list N), (t = 2 * m \/ t = 2 * m + 1) ->
     match l with u :: _ => (RightSibling (enc R j t) =? u) = false | [] => True end ->
     cnrt_loop n (enc R j t :: l) s =
       (let* rest := cnrt_loop n l (S s) in
        if Nat.even (S s) then let* p := Ok (enc R (j + 1) m) in Ok (p :: rest.1, enc R j t :: rest.2)
        else Ok (rest.1, enc R j t :: rest.2))).
  { intros t l Ht Hl. cbn [cnrt_loop]. assert (Hpt : Parent n (enc R j t) = Ok (enc R (j + 1) m)) by (destruct Ht as [->| ->]; done).
    rewrite Hpt. destruct l as [|u l]; [done|]. rewrite Hl. done. }
  assert (Hnb : forall t, (t = 2 * m \/ t = 2 * m + 1) ->
     match enc R j <$> pdead (m + 1) ps with u :: _ => (RightSibling (enc R j t) =? u) = false | [] => True end).
  { intros t Ht. destruct (pdead (m + 1) ps) as [|u l] eqn:E; [done|]. cbn [fmap list_fmap].
    assert (Hu : 2 * (m + 1) <= u) by (apply (pdead_ge (m + 1) ps); rewrite E; by left).
    apply N.eqb_neq. rewrite RightSibling_ok by lia. rewrite (enc_shift R j u), (enc_shift R j (_ * 2 + 1)).
    assert (t / 2 = m) by (destruct Ht; dlia). lia. }
  destruct x as [a|], y as [b|]; cbn [app hole survivor].
  - apply IH. done.
  - rewrite fmap_cons, Hlone; [|by auto|apply Hnb; by auto]. rewrite IH by done. cbn [bind fst snd].
    rewrite (Nat.even_succ s), (Nat.odd_succ s), <- (Nat.negb_odd s).
    destruct (Nat.odd s) eqn:E; cbn [negb bind]; done.
  - rewrite fmap_cons, Hlone; [|by auto|apply Hnb; by auto]. rewrite IH by done. cbn [bind fst snd].
    rewrite (Nat.even_succ s), (Nat.odd_succ s), <- (Nat.negb_odd s).
    destruct (Nat.odd s) eqn:E; cbn [negb bind]; done.
  - rewrite !fmap_cons. cbn [cnrt_loop].
    assert (Ers : (RightSibling (enc R j (2 * m)) =? enc R j (2 * m + 1)) = true).
    { apply N.eqb_eq. rewrite RightSibling_ok by lia. do 2 f_equal. dlia. }
    rewrite Ers, Hp0. cbn [bind]. rewrite IH by done. cbn [bind fst snd]. done.
Qed.
End Scan.

(** ** The matched pairs *)

(** [swl donor ts root]: who moves where, for the holes [ts]. *)
Fixpoint swl (donor : bool) (ts : list N) (root : option N) : list (N * N) :=
  match ts with
  | [] => []
  | t :: ts' =>
      if donor then swl false ts' root else
      match ts' with
      | t' :: _ => (sib t', t) :: swl true ts' root
      | [] => match root with Some r => [(r, t)] | None => [] end
      end
  end.

(** ** Sorting *)
Lemma insert_sorted_perm x l : insert_sorted x l ≡ₚ x :: l.
Proof.
  induction l as [|y l IH]; cbn [insert_sorted]; [done|]. destruct (x <=? y); [done|].
  rewrite IH. apply perm_swap.
Qed.
Lemma sortN_perm l : sortN l ≡ₚ l.
Proof. unfold sortN. induction l as [|x l IH]; cbn [foldr]; [done|]. rewrite insert_sorted_perm. by rewrite IH. Qed.
Lemma insert_sorted_sorted x l : StronglySorted N.le l -> StronglySorted N.le (insert_sorted x l).
Proof.
  induction 1 as [|y l Hs IH Hf]; cbn [insert_sorted]; [repeat constructor|].
  destruct (N.leb_spec x y).
  - constructor; [by constructor|]. constructor; [done|]. eapply Forall_impl; [done|]. cbn. lia.
  - constructor; [done|]. rewrite insert_sorted_perm. constructor; [lia|done].
Qed.
Lemma sortN_sorted l : StronglySorted N.le (sortN l).
Proof. unfold sortN. induction l as [|x l IH]; cbn [foldr]; [constructor|]. by apply insert_sorted_sorted. Qed.
Lemma sorted_lt_le l : StronglySorted N.lt l -> StronglySorted N.le l.
Proof. induction 1 as [|y l Hs IH Hf]; constructor; [done|]. eapply Forall_impl; [done|]. cbn. lia. Qed.
Lemma sortN_unique l l' : StronglySorted N.lt l -> l' ≡ₚ l -> sortN l' = l.
Proof.
  intros Hs Hp. apply (StronglySorted_unique N.le); [apply sortN_sorted|by apply sorted_lt_le|].
  by rewrite sortN_perm.
Qed.
Lemma sortN_id l : StronglySorted N.lt l -> sortN l = l.
Proof. intros Hs. by apply sortN_unique. Qed.
Lemma sorted_fmap (f : N -> N) l : (forall x y, x < y -> f x < f y) ->
  StronglySorted N.lt l -> StronglySorted N.lt (f <$> l).
Proof.
  intros Hf. induction 1 as [|y l Hs IH Ha]; cbn [fmap list_fmap]; constructor; [done|].
  apply Forall_fmap. eapply Forall_impl; [done|]. intros z. cbn. apply Hf.
Qed.
Lemma enc_mono R r x y : x < y -> enc R r x < enc R r y.
Proof. rewrite (enc_shift R r x), (enc_shift R r y). lia. Qed.
Lemma enc_inj1 R r x y : enc R r x = enc R r y -> x = y.
Proof. rewrite (enc_shift R r x), (enc_shift R r y). lia. Qed.

(** ** The next row *)
Lemma refill_length donor root ps : length (refill donor root ps) = length ps.
Proof.
  revert donor. induction ps as [|p ps IH]; intros donor; cbn [refill]; [done|].
  destruct (survivor p); [destruct donor|]; cbn [length]; by rewrite IH.
Qed.
Lemma next_row_length L : length (next_row L) = length (pair_up L).1.
Proof. apply refill_length. Qed.
Lemma next_row_size L : size (next_row L) = size L / 2.
Proof.
  unfold size. rewrite next_row_length, (pair_up_length L) at 1.
  generalize (length (pair_up L).1) as x. intros x.
  destruct (pair_up L).2; dlia.
Qed.

Lemma omap_head_singles m ps : head (omap survivor ps) = None <-> singles m ps = [].
Proof.
  pose proof (singles_length m ps) as Hl. split; intros E.
  - destruct (omap survivor ps); [|done]. by apply nil_length_inv.
  - rewrite E in Hl. symmetry in Hl. apply nil_length_inv in Hl. by rewrite Hl.
Qed.

Lemma refill_dead_full root ps : forall donor m,
  (is_Some root \/ Nat.odd (length (singles m ps)) = donor) ->
  dead m (refill donor root ps) = nextdead donor m ps.
Proof.
  induction ps as [|p ps IH]; intros donor m Hb; cbn [refill nextdead]; [done|].
  cbn [singles] in Hb.
  destruct p as [[a|] [b|]]; cbn [survivor hole] in *.
  - cbn [dead app]. by apply IH.
  - cbn [length] in Hb. rewrite Nat.odd_succ, <- Nat.negb_odd in Hb.
    destruct donor; cbn [dead app].
    + f_equal. apply IH. destruct Hb as [?|Hb]; [by left|right]. by apply negb_true_iff in Hb.
    + destruct (head (omap survivor ps)) as [d|] eqn:E.
      * cbn [app]. apply IH. destruct Hb as [?|Hb]; [by left|right]. by apply negb_false_iff in Hb.
      * apply (omap_head_singles (m + 1)) in E. rewrite E in Hb. destruct Hb as [[d ->]|Hb]; [|done].
        cbn [app]. apply IH. left. by eexists.
  - cbn [length] in Hb. rewrite Nat.odd_succ, <- Nat.negb_odd in Hb.
    destruct donor; cbn [dead app].
    + f_equal. apply IH. destruct Hb as [?|Hb]; [by left|right]. by apply negb_true_iff in Hb.
    + destruct (head (omap survivor ps)) as [d|] eqn:E.
      * cbn [app]. apply IH. destruct Hb as [?|Hb]; [by left|right]. by apply negb_false_iff in Hb.
      * apply (omap_head_singles (m + 1)) in E. rewrite E in Hb. destruct Hb as [[d ->]|Hb]; [|done].
        cbn [app]. apply IH. left. by eexists.
  - cbn [dead app]. f_equal. by apply IH.
Qed.

Lemma refill_dead_none root ps : forall donor m, singles m ps = [] ->
  dead m (refill donor root ps) = nextdead donor m ps.
Proof.
  induction ps as [|p ps IH]; intros donor m Hs; cbn [refill nextdead]; [done|].
  cbn [singles] in Hs. destruct p as [[a|] [b|]]; cbn [survivor hole] in *; try done; cbn [dead app].
  - by apply IH.
  - f_equal. by apply IH.
Qed.

Lemma refill_dead_last ps : forall donor m t, Nat.odd (length (singles m ps)) = negb donor ->
  last (singles m ps) = Some t ->
  dead m (refill donor None ps) ≡ₚ nextdead donor m ps ++ [t / 2].
Proof.
  induction ps as [|p ps IH]; intros donor m t Hb Hl; cbn [refill nextdead]; [done|].
  cbn [singles] in Hb, Hl.
  assert (Hsolve : forall tt (X Y : chunk) (q : list chunk -> option chunk),
    hole m p = Some tt -> tt / 2 = m -> Nat.odd (length (tt :: singles (m + 1) ps)) = negb donor ->
    last (tt :: singles (m + 1) ps) = Some t ->
    (forall d, is_Some (q [d])) -> q [] = None ->
    dead m (if donor then None :: refill false None ps
            else q (match head (omap survivor ps) with Some d => [d] | None => [] end) :: refill true None ps)
    ≡ₚ (if donor then m :: nextdead false (m + 1) ps else nextdead true (m + 1) ps) ++ [t / 2]).
  { intros tt X Y q Hh Ht Ho Hla Hq1 Hq0. cbn [length] in Ho. rewrite Nat.odd_succ, <- Nat.negb_odd in Ho.
    assert (Ho' : Nat.odd (length (singles (m + 1) ps)) = donor).
    { destruct donor, (Nat.odd (length (singles (m + 1) ps))); done. }
    destruct donor; cbn [dead app].
    - constructor. apply IH; [by rewrite Ho'|].
      destruct (singles (m + 1) ps) as [|u l] eqn:E; [done|]. done.
    - destruct (head (omap survivor ps)) as [d|] eqn:E.
      + destruct (Hq1 d) as [z Hz]. rewrite Hz. cbn [app]. apply IH; [by rewrite Ho'|].
        destruct (singles (m + 1) ps) as [|u l] eqn:E2; [|done].
        apply (omap_head_singles (m + 1)) in E2. congruence.
      + rewrite Hq0. apply (omap_head_singles (m + 1)) in E. rewrite E in Hla. cbn in Hla. injection Hla as <-.
        rewrite Ht. cbn [app]. rewrite refill_dead_none by done. by rewrite Permutation_app_comm. }
  destruct p as [[a|] [b|]]; cbn [survivor hole] in *.
  - cbn [dead app]. by apply IH.
  - pose proof (Hsolve (2 * m + 1) [] [] (fun l => match l with d :: _ => Some (a ++ d) | [] => None end)) as Hx.
    rewrite <- (Hx eq_refl ltac:(dlia) Hb Hl (fun d => ex_intro _ _ eq_refl) eq_refl).
    destruct donor; [done|]. by destruct (head (omap survivor ps)).
  - pose proof (Hsolve (2 * m) [] [] (fun l => match l with d :: _ => Some (d ++ b) | [] => None end)) as Hx.
    rewrite <- (Hx eq_refl ltac:(dlia) Hb Hl (fun d => ex_intro _ _ eq_refl) eq_refl).
    destruct donor; [done|]. by destruct (head (omap survivor ps)).
  - cbn [dead app]. constructor. by apply IH.
Qed.

(** ** Products of disjoint exchanges *)
Definition act (l : list (N * N)) (x : N) : N := fold_left (fun x s => sw s.1 s.2 x) l x.
Definition ends (l : list (N * N)) : list N := mjoin ((λ s : N * N, [s.1; s.2]) <$> l).

Lemma sw_l a b : sw a b a = b.
Proof. unfold sw. by rewrite N.eqb_refl. Qed.
Lemma sw_r a b : sw a b b = a.
Proof. unfold sw. destruct (N.eqb_spec b a); [done|]. by rewrite N.eqb_refl. Qed.
Lemma sw_ne a b x : x <> a -> x <> b -> sw a b x = x.
Proof. unfold sw. intros. destruct (N.eqb_spec x a), (N.eqb_spec x b); done. Qed.
Lemma sw_same a x : sw a a x = x.
Proof. unfold sw. destruct (N.eqb_spec x a); [done|]. done. Qed.
Lemma sw_invol a b x : sw a b (sw a b x) = x.
Proof.
  destruct (decide (x = a)) as [->|]; [by rewrite sw_l, sw_r|].
  destruct (decide (x = b)) as [->|]; [by rewrite sw_r, sw_l|]. rewrite (sw_ne a b x) by done. by apply sw_ne.
Qed.

Lemma act_cons s l x : act (s :: l) x = act l (sw s.1 s.2 x).
Proof. done. Qed.
Lemma act_app l1 l2 x : act (l1 ++ l2) x = act l2 (act l1 x).
Proof. unfold act. by rewrite fold_left_app. Qed.
Lemma ends_cons s l : ends (s :: l) = s.1 :: s.2 :: ends l.
Proof. done. Qed.
Lemma act_fix l x : x ∉ ends l -> act l x = x.
Proof.
  revert x. induction l as [|s l IH]; intros x; [done|]. rewrite ends_cons, act_cons, !not_elem_of_cons.
  intros (H1 & H2 & H3). rewrite sw_ne by done. by apply IH.
Qed.
Lemma act_pair l f t : NoDup (ends l) -> (f, t) ∈ l -> act l f = t /\ act l t = f.
Proof.
  induction l as [|s l IH]; [by intros _ ?%elem_of_nil|].
  rewrite ends_cons, !NoDup_cons, !not_elem_of_cons, elem_of_cons, !act_cons. intros ((Hne & H1) & H2 & Hnd) [<-|Hin].
  - cbn [fst snd] in *. rewrite sw_l, sw_r. split; by apply act_fix.
  - assert (Hx : f ∈ ends l /\ t ∈ ends l).
    { unfold ends. split; apply elem_of_list_join; exists [f; t]; (split; [set_solver|]);
        apply elem_of_list_fmap; by exists (f, t). }
    assert (f <> s.1 /\ f <> s.2 /\ t <> s.1 /\ t <> s.2) as (?&?&?&?) by (repeat split; intros ->; naive_solver).
    rewrite !sw_ne by done. by apply IH.
Qed.

Lemma sib_half x : sib x / 2 = x / 2.
Proof. unfold sib. rewrite even_mod. destruct (N.eqb_spec (x mod 2) 0); dlia. Qed.
Lemma sib_sib x : sib (sib x) = x.
Proof. unfold sib. rewrite !even_mod. destruct (N.eqb_spec (x mod 2) 0); 
  match goal with |- context [?a =? ?b] => destruct (N.eqb_spec a b) end; dlia. Qed.
Lemma sib_ne x : sib x <> x.
Proof. unfold sib. rewrite even_mod. destruct (N.eqb_spec (x mod 2) 0); dlia. Qed.
Lemma half_cases x y : x / 2 = y / 2 -> x = y \/ x = sib y.
Proof. unfold sib. rewrite even_mod. destruct (N.eqb_spec (y mod 2) 0); dlia. Qed.

Lemma hole_half m p t : hole m p = Some t -> t / 2 = m.
Proof. destruct p as [[|] [|]]; cbn [hole]; intros E; try done; apply (inj Some) in E; subst t; dlia. Qed.

Lemma singles_elem ps : forall m t, t ∈ singles m ps <-> exists k p, ps !! k = Some p /\ hole (m + N.of_nat k) p = Some t.
Proof.
  induction ps as [|p ps IH]; intros m t; cbn [singles].
  - rewrite elem_of_nil. split; [done|]. intros (k & p & E & _). by rewrite lookup_nil in E.
  - assert (Hr : t ∈ singles (m + 1) ps <-> exists k p0, (p :: ps) !! S k = Some p0 /\ hole (m + N.of_nat (S k)) p0 = Some t).
    { rewrite IH. split; intros (k & p0 & E & Hh); exists k, p0; (split; [done|]); rewrite <- Hh; f_equal; lia. }
    destruct (hole m p) as [u|] eqn:Eh.
    + rewrite elem_of_cons, Hr. split.
      * intros [->|(k & p0 & E & Hh)]; [exists 0%nat, p; split; [done|]; rewrite <- Eh; f_equal; lia|eauto].
      * intros ([|k] & p0 & E & Hh); [left|right; eauto]. cbn in E. injection E as <-.
        replace (m + N.of_nat 0) with m in Hh by lia. congruence.
    + rewrite Hr. split; [intros (k & p0 & E & Hh); eauto|].
      intros ([|k] & p0 & E & Hh); [|eauto]. cbn in E. injection E as <-.
      replace (m + N.of_nat 0) with m in Hh by lia. congruence.
Qed.
Lemma singles_range ps m t : t ∈ singles m ps -> m <= t / 2 < m + size ps.
Proof.
  rewrite singles_elem. intros (k & p & E & Hh). apply lookup_lt_Some in E. apply hole_half in Hh.
  unfold size. lia.
Qed.
Lemma singles_nodup ps : forall m, NoDup ((λ t, t / 2) <$> singles m ps).
Proof.
  induction ps as [|p ps IH]; intros m; cbn [singles]; [constructor|].
  destruct (hole m p) as [u|] eqn:Eh; [|apply IH]. cbn [fmap list_fmap]. apply NoDup_cons. split; [|apply IH].
  apply hole_half in Eh. rewrite Eh, elem_of_list_fmap. intros (t & -> & Ht%singles_range). lia.
Qed.

Lemma swl_ends ts root x : x ∈ ends (swl false ts root) -> (exists t, t ∈ ts /\ x / 2 = t / 2) \/ root = Some x.
Proof.
  induction ts as [|t|t t' ts IH] using pair_up_ind.
  - by intros ?%elem_of_nil.
  - cbn [swl]. destruct root as [r|]; [|by intros ?%elem_of_nil].
    rewrite ends_cons. cbn [fst snd]. rewrite !elem_of_cons. intros [->|[->|?%elem_of_nil]]; [by right| |done].
    left. exists t. split; [by left|done].
  - change (swl false (t :: t' :: ts) root) with ((sib t', t) :: swl false ts root).
    rewrite ends_cons. cbn [fst snd]. rewrite !elem_of_cons. intros [->|[->|Hx]].
    + left. exists t'. split; [right; by left|apply sib_half].
    + left. exists t. split; [by left|done].
    + destruct (IH Hx) as [(u & Hu & E)|E]; [left|by right]. exists u. split; [by do 2 right|done].
Qed.
Notation halves l := ((λ x : N, x / 2) <$> l) (only parsing).
Lemma half_in (l : list N) x : x ∈ l -> x / 2 ∈ halves l.
Proof. intros Hx. apply elem_of_list_fmap. by exists x. Qed.
Lemma swl_halves ts root x : x ∈ halves (ends (swl false ts root)) ->
  x ∈ halves ts \/ exists r, root = Some r /\ x = r / 2.
Proof.
  rewrite !elem_of_list_fmap. intros (y & -> & [(t & Ht & E)|E]%swl_ends); [left; eauto|right; eauto].
Qed.
Lemma swl_nodup ts root : NoDup (halves ts) ->
  (forall r t, root = Some r -> t ∈ ts -> r / 2 <> t / 2) -> NoDup (halves (ends (swl false ts root))).
Proof.
  induction ts as [|t|t t' ts IH] using pair_up_ind; intros Hnd Hr.
  - constructor.
  - cbn [swl]. destruct root as [r|]; [|constructor]. rewrite ends_cons. cbn [fst snd fmap list_fmap].
    apply NoDup_cons. split; [|apply NoDup_singleton]. rewrite elem_of_list_singleton.
    by apply (Hr r t); [|left].
  - change (swl false (t :: t' :: ts) root) with ((sib t', t) :: swl false ts root).
    cbn [fmap list_fmap] in Hnd. apply NoDup_cons in Hnd as [H1 Hnd]. apply NoDup_cons in Hnd as [H2 Hnd].
    rewrite not_elem_of_cons in H1. destruct H1 as [H0 H1].
    rewrite ends_cons. cbn [fst snd fmap list_fmap]. rewrite sib_half, !NoDup_cons, not_elem_of_cons.
    split; [split; [done|]|split].
    + intros [Hx|(r & Er & E)]%swl_halves; [done|]. apply (Hr r t' Er); [right; by left|done].
    + intros [Hx|(r & Er & E)]%swl_halves; [done|]. apply (Hr r t Er); [by left|done].
    + apply IH; [done|]. intros r u Er Hu. apply Hr; [done|]. by do 2 right.
Qed.
Lemma swl_last ts u : NoDup (halves ts) -> Nat.odd (length ts) = true -> last ts = Some u ->
  u / 2 ∉ halves (ends (swl false ts None)).
Proof.
  induction ts as [|t|t t' ts IH] using pair_up_ind; intros Hnd Ho Hl.
  - done.
  - cbn [swl]. apply not_elem_of_nil.
  - change (swl false (t :: t' :: ts) None) with ((sib t', t) :: swl false ts None).
    cbn [fmap list_fmap] in Hnd. apply NoDup_cons in Hnd as [H1 Hnd]. apply NoDup_cons in Hnd as [H2 Hnd].
    rewrite not_elem_of_cons in H1. destruct H1 as [H0 H1].
    assert (Hl' : last ts = Some u) by (destruct ts as [|v ts]; [done|done]).
    assert (Hu : u ∈ ts) by (by apply last_Some_elem_of).
    assert (Hu2 : u / 2 ∈ halves ts) by (by apply half_in).
    rewrite ends_cons. cbn [fst snd fmap list_fmap]. rewrite sib_half, !not_elem_of_cons.
    split; [|split]; [intros E; by rewrite E in Hu2..|]. by apply IH.
Qed.
Lemma swl_even ts root : Nat.even (length ts) = true -> swl false ts root = swl false ts None.
Proof.
  induction ts as [|t|t t' ts IH] using pair_up_ind; intros He; [done|done|].
  change (swl false (t :: t' :: ts) root) with ((sib t', t) :: swl false ts root).
  change (swl false (t :: t' :: ts) None) with ((sib t', t) :: swl false ts None). f_equal. by apply IH.
Qed.
Lemma ends_in f t l : (f, t) ∈ l -> f ∈ ends l /\ t ∈ ends l.
Proof.
  intros Hin. unfold ends. split; apply elem_of_list_join; exists [f; t]; (split; [set_solver|]);
    apply elem_of_list_fmap; by exists (f, t).
Qed.
Lemma ends_pair_half f t l : NoDup (halves (ends l)) -> (f, t) ∈ l -> f / 2 <> t / 2.
Proof.
  induction l as [|s l IH]; [by intros _ ?%elem_of_nil|]. rewrite ends_cons. cbn [fmap list_fmap].
  rewrite !NoDup_cons, not_elem_of_cons, elem_of_cons. intros ((Hne & _) & _ & Hnd) [<-|Hin]; [done|by apply IH].
Qed.
Lemma halves_inj (l : list N) x y : NoDup (halves l) -> x ∈ l -> y ∈ l -> x / 2 = y / 2 -> x = y.
Proof.
  induction l as [|z l IH]; [by intros _ ?%elem_of_nil|]. cbn [fmap list_fmap]. rewrite NoDup_cons, !elem_of_cons.
  intros (Hz & Hnd) [->|Hx] [->|Hy] E; [done| | |by apply IH].
  - destruct Hz. rewrite E. by apply half_in.
  - destruct Hz. rewrite <- E. by apply half_in.
Qed.

(** ** What the next row holds *)
Definition fillc (p : cpair) (d : chunk) : chunk :=
  match p with (Some a, None) => a ++ d | (None, Some b) => d ++ b | _ => [] end.
Definition agrees (m : N) (ps : list cpair) (cont : N -> cell) : Prop :=
  forall k p, ps !! k = Some p -> cont (2 * (m + N.of_nat k)) = p.1 /\ cont (2 * (m + N.of_nat k) + 1) = p.2.

Lemma agrees_tail m p ps cont : agrees m (p :: ps) cont ->
  agrees (m + 1) ps cont /\ cont (2 * m) = p.1 /\ cont (2 * m + 1) = p.2.
Proof.
  intros Ha. split.
  - intros k q Hk. specialize (Ha (S k) q Hk). replace (m + N.of_nat (S k)) with (m + 1 + N.of_nat k) in Ha by lia. done.
  - specialize (Ha 0%nat p eq_refl). replace (m + N.of_nat 0) with m in Ha by lia. done.
Qed.
Lemma hole_cont m p t cont : hole m p = Some t -> cont (2 * m) = p.1 -> cont (2 * m + 1) = p.2 ->
  cont t = None /\ cont (sib t) = survivor p /\ is_Some (survivor p).
Proof.
  intros Hh H1 H2.
  assert (Hs0 : sib (2 * m) = 2 * m + 1) by (unfold sib; rewrite even_mod; destruct (N.eqb_spec (2 * m mod 2) 0); dlia).
  assert (Hs1 : sib (2 * m + 1) = 2 * m) by (rewrite <- Hs0; apply sib_sib).
  destruct p as [[a|] [b|]]; cbn [hole fst snd survivor] in *; try done; apply (inj Some) in Hh; subst t;
    rewrite ?Hs0, ?Hs1; (split; [done|]); (split; [done|by eexists]).
Qed.
Lemma head_survivor m ps cont t ts : agrees m ps cont -> singles m ps = t :: ts ->
  head (omap survivor ps) = cont (sib t) /\ is_Some (cont (sib t)).
Proof.
  revert m. induction ps as [|p ps IH]; intros m Ha Hs; cbn [singles] in Hs; [done|].
  apply agrees_tail in Ha as (Ha & H1 & H2). cbn [omap list_omap].
  destruct (hole m p) as [u|] eqn:Eh.
  - injection Hs as <- <-. destruct (hole_cont _ _ _ _ Eh H1 H2) as (_ & -> & [d E]). by rewrite E.
  - assert (survivor p = None) as -> by (destruct p as [[|] [|]]; done). by apply (IH (m + 1)).
Qed.

Lemma swl_true_sub t ts root x : x ∈ swl true ts root -> x ∈ swl false (t :: ts) root.
Proof.
  destruct ts as [|t' ts]; cbn [swl]; [by intros ?%elem_of_nil|]. intros Hx. by right.
Qed.

Lemma refill_spec root ri cont ps : (forall r, ri = Some r -> cont r = root /\ is_Some root) ->
  (ri = None -> root = None) ->
  forall donor m k p, agrees m ps cont -> ps !! k = Some p ->
  match refill donor root ps !! k with
  | Some (Some c) =>
      (exists a b, p = (Some a, Some b) /\ c = a ++ b) \/
      (exists t f d, hole (m + N.of_nat k) p = Some t /\ (f, t) ∈ swl donor (singles m ps) ri /\
                     cont f = Some d /\ c = fillc p d)
  | Some None =>
      p = (None, None) \/
      exists t, hole (m + N.of_nat k) p = Some t /\
        ((exists t', (sib t, t') ∈ swl donor (singles m ps) ri /\ t' ∈ singles m ps) \/
         (donor = true /\ head (singles m ps) = Some t) \/
         (last (singles m ps) = Some t /\ root = None /\ Nat.odd (length (singles m ps)) = negb donor))
  | None => False
  end.
Proof.
  intros Hri Hri0. induction ps as [|p0 ps IH]; intros donor m k p Ha Hk; [done|].
  apply agrees_tail in Ha as (Ha & H1 & H2). cbn [refill singles].
  destruct (survivor p0) as [s|] eqn:Es.
  - assert (exists t, hole m p0 = Some t) as [t Eh] by (apply hole_survivor; eauto). rewrite Eh.
    destruct k as [|k].
    + cbn in Hk. injection Hk as <-. replace (m + N.of_nat 0) with m by lia. rewrite Eh.
      destruct donor; cbn [lookup list_lookup].
      * right. exists t. split; [done|]. right. by left.
      * destruct (singles (m + 1) ps) as [|t' ts] eqn:Esg.
        -- assert (head (omap survivor ps) = None) as -> by (by apply (omap_head_singles (m + 1))).
           destruct root as [d|] eqn:Er.
           ++ destruct ri as [r|] eqn:Eri; [|by specialize (Hri0 eq_refl)].
              assert (exists c, (match p0 with (Some a, None) => Some (a ++ d) | (None, Some b) => Some (d ++ b) | _ => None end) = Some c /\ c = fillc p0 d) as (c & -> & ->).
              { destruct p0 as [[|] [|]]; try done; cbn [fillc]; eauto. }
              right. exists t, r, d. split; [done|]. split; [cbn [swl]; by left|]. split; [apply Hri; done|done].
           ++ destruct p0 as [[a|] [b|]]; cbn [survivor] in Es; try done;
                (right; exists t; split; [done|]; right; right; done).
        -- destruct (head_survivor _ _ _ _ _ Ha Esg) as [-> [d Ed]]. rewrite Ed.
           assert (exists c, (match p0 with (Some a, None) => Some (a ++ d) | (None, Some b) => Some (d ++ b) | _ => None end) = Some c /\ c = fillc p0 d) as (c & -> & ->).
           { destruct p0 as [[|] [|]]; try done; cbn [fillc]; eauto. }
           right. exists t, (sib t'), d. split; [done|]. split; [|done]. cbn [swl]. by left.
    + cbn [lookup list_lookup] in Hk. destruct donor; cbn [lookup list_lookup].
      * specialize (IH false (m + 1) k p Ha Hk). replace (m + N.of_nat (S k)) with (m + 1 + N.of_nat k) by lia.
        destruct (refill false root ps !! k) as [[c|]|]; [| |done].
        -- destruct IH as [?|(u & f & d & Hu & Hf & Hd & ->)]; [by left|right]. exists u, f, d. done.
        -- destruct IH as [?|(u & Hu & [(t' & Hf & Ht')|[[? ?]|(Hl & Hr & Ho)]])]; [by left|right; exists u|done|right; exists u].
           ++ split; [done|]. left. exists t'. split; [done|by right].
           ++ split; [done|]. right. right. destruct (singles (m + 1) ps) as [|v l]; [done|].
              split; [done|]. split; [done|]. remember (v :: l) as vl. cbn [length]. rewrite Nat.odd_succ, <- Nat.negb_odd, Ho. done.
      * specialize (IH true (m + 1) k p Ha Hk). replace (m + N.of_nat (S k)) with (m + 1 + N.of_nat k) by lia.
        destruct (refill true root ps !! k) as [[c|]|]; [| |done].
        -- destruct IH as [?|(u & f & d & Hu & Hf & Hd & ->)]; [by left|right]. exists u, f, d.
           split; [done|]. split; [by apply swl_true_sub|done].
        -- destruct IH as [?|(u & Hu & [(t' & Hf & Ht')|[[_ Hh]|(Hl & Hr & Ho)]])]; [by left|right; exists u..].
           ++ split; [done|]. left. exists t'. split; [by apply swl_true_sub|by right].
           ++ split; [done|]. left. exists t. destruct (singles (m + 1) ps) as [|v l]; [done|]. injection Hh as ->.
              split; [|by left]. cbn [swl]. by left.
           ++ split; [done|]. right. right. destruct (singles (m + 1) ps) as [|v l]; [done|].
              split; [done|]. split; [done|]. remember (v :: l) as vl. cbn [length]. rewrite Nat.odd_succ, <- Nat.negb_odd, Ho. done.
  - assert (hole m p0 = None) as Eh by (destruct p0 as [[|] [|]]; done). rewrite Eh.
    destruct k as [|k].
    + cbn in Hk. injection Hk as <-. cbn [lookup list_lookup].
      destruct p0 as [[a|] [b|]]; try done; [left; eauto|by left].
    + cbn [lookup list_lookup] in *. specialize (IH donor (m + 1) k p Ha Hk).
      replace (m + N.of_nat (S k)) with (m + 1 + N.of_nat k) by lia. done.
Qed.

(** Counting. *)
Definition alive (L : list cell) : N := size (omap id L).
Fixpoint palive (ps : list cpair) : N :=
  match ps with
  | [] => 0
  | (x, y) :: ps' => (if x then 1 else 0) + (if y then 1 else 0) + palive ps'
  end.
Lemma alive_cons x L : alive (x :: L) = (if x then 1 else 0) + alive L.
Proof. unfold alive, size. cbn [omap list_omap id]. destruct x; cbn [length]; unfold omap; lia. Qed.
Lemma alive_nil : alive [] = 0.
Proof. done. Qed.
Lemma refill_alive_none root ps : forall donor m, singles m ps = [] -> 2 * alive (refill donor root ps) = palive ps.
Proof.
  induction ps as [|p ps IH]; intros donor m Hs; cbn [refill palive]; [done|].
  cbn [singles] in Hs. destruct p as [[a|] [b|]]; cbn [survivor hole] in *; try done; rewrite alive_cons;
    specialize (IH donor (m + 1) Hs); lia.
Qed.
Lemma refill_alive root ps : forall donor m, (donor = true -> singles m ps <> []) ->
  2 * alive (refill donor root ps) + (if donor then 1 else 0)
     + (if Bool.eqb (Nat.odd (length (singles m ps))) donor then 0 else match root with None => 1 | Some _ => 0 end)
  = palive ps + (if Bool.eqb (Nat.odd (length (singles m ps))) donor then 0 else match root with None => 0 | Some _ => 1 end).
Proof.
  induction ps as [|p ps IH]; intros donor m Hs; cbn [refill singles palive].
  { destruct donor; [by destruct Hs|done]. }
  assert (Hkey : forall t (q : chunk -> chunk) (x : list chunk),
    2 * alive (if donor then None :: refill false root ps
               else (match head (omap survivor ps) with Some d => Some (q d) | None => match root with Some d => Some (q d) | None => None end end) :: refill true root ps)
      + (if donor then 1 else 0)
      + (if Bool.eqb (Nat.odd (length (t :: singles (m + 1) ps))) donor then 0 else match root with None => 1 | Some _ => 0 end)
    = 1 + palive ps + (if Bool.eqb (Nat.odd (length (t :: singles (m + 1) ps))) donor then 0 else match root with None => 0 | Some _ => 1 end)).
  { intros t q _. cbn [length]. rewrite Nat.odd_succ, <- Nat.negb_odd. destruct donor.
    - rewrite alive_cons. specialize (IH false (m + 1) ltac:(done)).
      destruct (Nat.odd (length (singles (m + 1) ps))); cbn [negb Bool.eqb] in *; destruct root; lia.
    - destruct (singles (m + 1) ps) as [|u l] eqn:E.
      + assert (head (omap survivor ps) = None) as -> by (by apply (omap_head_singles (m + 1))).
        pose proof (refill_alive_none root ps true (m + 1) E) as Hn. rewrite alive_cons. cbn [length Nat.odd Nat.even negb Bool.eqb].
        destruct root; lia.
      + destruct (head (omap survivor ps)) as [d|] eqn:E2; [|apply (omap_head_singles (m + 1)) in E2; congruence].
        rewrite <- E in *. specialize (IH true (m + 1) ltac:(intros _; by rewrite E)). rewrite alive_cons.
        destruct (Nat.odd (length (singles (m + 1) ps))); cbn [negb Bool.eqb] in *; destruct root; lia. }
  destruct p as [[a|] [b|]]; cbn [survivor hole].
  - cbn [singles hole] in Hs. rewrite alive_cons. specialize (IH donor (m + 1) Hs). lia.
  - etransitivity; [|etransitivity; [apply (Hkey (2 * m + 1) (fun d => a ++ d) [])|f_equal; lia]].
    do 3 f_equal. destruct donor; [done|]. by destruct (head (omap survivor ps)).
  - etransitivity; [|etransitivity; [apply (Hkey (2 * m) (fun d => d ++ b) [])|f_equal; lia]].
    do 3 f_equal. destruct donor; [done|]. by destruct (head (omap survivor ps)).
  - cbn [singles hole] in Hs. rewrite alive_cons. specialize (IH donor (m + 1) Hs). lia.
Qed.

(** ** One row *)
Definition rps (L : list cell) : list cpair := (pair_up L).1.
Definition rsing (L : list cell) : list N := singles 0 (rps L).
Definition ri (L : list cell) : option N :=
  match (pair_up L).2 with Some (Some _) => Some (2 * size (rps L)) | _ => None end.
Definition rsws (L : list cell) : list (N * N) := swl false (rsing L) (ri L).
Definition colfrom (L : list cell) : option N :=
  if Nat.even (length (rsing L)) then ri L
  else match ri L with Some _ => None | None => sib <$> last (rsing L) end.
Definition bit (L : list cell) : N := match colfrom L with Some _ => 1 | None => 0 end.
Definition sigma (L : list cell) (y x : N) : N :=
  match colfrom L with Some f => sw f (2 * y) (act (rsws L) x) | None => act (rsws L) x end.
Fixpoint tailpos (k : nat) (L : list cell) : N :=
  match k with
  | O => alive L
  | S k' => let y := tailpos k' (next_row L) in sigma L y (2 * y + bit L)
  end.
Definition cont (L : list cell) (i : N) : cell := mjoin (L !! N.to_nat i).

Lemma pair_up_lookup {A} (L : list A) k x y : (pair_up L).1 !! k = Some (x, y) ->
  L !! (2 * k)%nat = Some x /\ L !! (2 * k + 1)%nat = Some y.
Proof.
  revert k. induction L as [|a|a b L IH] using pair_up_ind; intros k; cbn [pair_up fst]; [done..|].
  destruct k as [|k]; cbn [lookup list_lookup].
  - by intros [= -> ->].
  - intros Hk%IH. replace (2 * S k)%nat with (S (S (2 * k))) by lia. done.
Qed.
Lemma pair_up_root {A} (L : list A) x : (pair_up L).2 = Some x -> L !! (2 * length (pair_up L).1)%nat = Some x.
Proof.
  induction L as [|a|a b L IH] using pair_up_ind; cbn [pair_up fst snd length]; [done|by intros [= ->]|].
  intros Hx%IH. replace (2 * S (length (pair_up L).1))%nat with (S (S (2 * length (pair_up L).1))) by lia. done.
Qed.
Lemma cont_agrees L : agrees 0 (rps L) (cont L).
Proof.
  intros k [x y] Hk. apply pair_up_lookup in Hk as [H1 H2]. unfold cont. cbn [fst snd].
  replace (N.to_nat (2 * (0 + N.of_nat k))) with (2 * k)%nat by lia.
  replace (N.to_nat (2 * (0 + N.of_nat k) + 1)) with (2 * k + 1)%nat by lia. by rewrite H1, H2.
Qed.
Lemma cont_root L : match ri L with Some r => cont L r = row_root L /\ is_Some (row_root L) | None => row_root L = None end.
Proof.
  unfold ri, row_root. destruct (pair_up L).2 as [[c|]|] eqn:E; [|done..].
  apply pair_up_root in E. unfold cont, size, rps.
  replace (N.to_nat (2 * N.of_nat (length (pair_up L).1))) with (2 * length (pair_up L).1)%nat by lia.
  rewrite E. split; [done|by eexists].
Qed.
Lemma size_rps L : size (rps L) = size L / 2.
Proof. rewrite <- next_row_size. unfold size, rps. by rewrite next_row_length. Qed.
Lemma alive_pairs L : alive L = palive (rps L) + match row_root L with Some _ => 1 | None => 0 end.
Proof.
  unfold rps, row_root. induction L as [|a|a b L IH] using pair_up_ind; cbn [pair_up fst snd palive]; [done|..].
  - rewrite alive_cons. cbn [mjoin option_join]. destruct a; done.
  - rewrite !alive_cons, IH. lia.
Qed.
Lemma alive_next L : alive L = 2 * alive (next_row L) + bit L.
Proof.
  pose proof (refill_alive (row_root L) (rps L) false 0 ltac:(done)) as Hr. fold (next_row L) in Hr.
  change (refill false (row_root L) (rps L)) with (next_row L) in Hr.
  rewrite alive_pairs. fold (rsing L) in Hr. unfold bit, colfrom.
  pose proof (cont_root L) as Hc. rewrite <- Nat.negb_odd.
  assert (Hl : Nat.odd (length (rsing L)) = true -> is_Some (last (rsing L))).
  { destruct (rsing L) as [|u l]; [done|]. intros _. destruct (last (u :: l)) eqn:E; [by eexists|]. by apply last_None in E. }
  destruct (Nat.odd (length (rsing L))); cbn [Bool.eqb negb] in *.
  - destruct (Hl eq_refl) as [t ->]. destruct (ri L); [destruct Hc as [_ [d Hd]]; rewrite Hd in *|rewrite Hc in *]; cbn [fmap option_fmap option_map]; lia.
  - destruct (ri L); [destruct Hc as [_ [d Hd]]; rewrite Hd in *|rewrite Hc in *]; lia.
Qed.
Lemma alive_le L : alive L <= size L.
Proof. unfold alive, size. pose proof (dead_count L 0). unfold omap in *. lia. Qed.
Lemma alive_full L : dead 0 L = [] -> alive L = size L.
Proof. unfold alive, size. pose proof (dead_count L 0) as Hd. intros E. rewrite E in Hd. cbn [length] in Hd. unfold omap in *. lia. Qed.

(** ** The map of positions of one row *)
Section OneRow.
Context (L : list cell).

Lemma ri_half r : ri L = Some r -> r / 2 = size (rps L).
Proof. unfold ri. destruct (pair_up L).2 as [[|]|]; intros E; try done. apply (inj Some) in E. subst r. rewrite N.mul_comm. by apply N.div_mul. Qed.
Lemma ri_even r : ri L = Some r -> r = 2 * (r / 2).
Proof. intros E. rewrite (ri_half _ E). unfold ri in E. destruct (pair_up L).2 as [[|]|]; try done. by apply (inj Some) in E. Qed.
Lemma rsing_half t : t ∈ rsing L -> t / 2 < size (rps L).
Proof. intros Ht%singles_range. lia. Qed.
Lemma rsing_nodup : NoDup (halves (rsing L)).
Proof. apply singles_nodup. Qed.
Lemma rsws_halves : NoDup (halves (ends (rsws L))).
Proof. apply swl_nodup; [apply rsing_nodup|]. intros r t Hr%ri_half Ht%rsing_half. lia. Qed.
Lemma rsws_nodup : NoDup (ends (rsws L)).
Proof. eapply NoDup_fmap_1, rsws_halves. Qed.
Lemma act_half x : x / 2 ∉ halves (ends (rsws L)) -> act (rsws L) x = x.
Proof. intros Hx. apply act_fix. intros Hin. apply Hx. by apply half_in. Qed.
Lemma act_sib x : sib x ∈ ends (rsws L) -> act (rsws L) x = x.
Proof.
  intros Hx. apply act_fix. intros Hin. apply (sib_ne x). eapply halves_inj; [apply rsws_halves|done|done|apply sib_half].
Qed.
(** A pair without hole is not touched. *)
Lemma no_hole_half k p : rps L !! N.to_nat k = Some p -> hole k p = None -> k ∉ halves (ends (rsws L)) /\
  forall f, colfrom L = Some f -> f / 2 <> k.
Proof.
  intros Hk Hh.
  assert (Hx : k ∉ halves (rsing L)).
  { rewrite elem_of_list_fmap. intros (t & -> & Ht). apply singles_elem in Ht as (k' & p' & Hk' & Hh').
    pose proof (hole_half _ _ _ Hh') as E. replace (N.to_nat (t / 2)) with k' in Hk by lia.
    assert (p' = p) as -> by congruence. replace (t / 2) with (0 + N.of_nat k') in Hh by lia. congruence. }
  assert (Hlt : k < size (rps L)) by (apply lookup_lt_Some in Hk; unfold size; lia).
  split.
  - intros [Hy|(r & Er & E)]%swl_halves; [done|]. apply ri_half in Er. lia.
  - intros f Hf E. unfold colfrom in Hf. destruct (Nat.even _).
    + apply ri_half in Hf. lia.
    + destruct (ri L); [done|]. destruct (last (rsing L)) as [u|] eqn:El; [|done]. injection Hf as <-.
      rewrite sib_half in E. apply Hx. rewrite <- E. apply half_in. by apply last_Some_elem_of.
Qed.
(** The target row of the collapse is not touched by the swaps. *)
Lemma colfrom_half f : colfrom L = Some f -> f / 2 ∉ halves (ends (rsws L)).
Proof.
  unfold colfrom. destruct (Nat.even (length (rsing L))) eqn:He.
  - intros Hf. unfold rsws. rewrite swl_even by done.
    intros [Hy|(r & Er & E)]%swl_halves; [|done]. apply elem_of_list_fmap in Hy as (t & E & Ht%rsing_half).
    apply ri_half in Hf. lia.
  - destruct (ri L) eqn:Er; [done|]. destruct (last (rsing L)) as [u|] eqn:El; [|done]. intros [= <-].
    unfold rsws. rewrite Er, sib_half. apply swl_last; [apply rsing_nodup| |done]. by rewrite <- Nat.negb_even, He.
Qed.
Lemma colfrom_act f : colfrom L = Some f -> act (rsws L) f = f.
Proof. intros Hf. by apply act_half, colfrom_half. Qed.

Lemma sigma_act y x : act (rsws L) x = x -> (forall f, colfrom L = Some f -> x <> f /\ x <> 2 * y) -> sigma L y x = x.
Proof.
  intros Ha Hf. unfold sigma. rewrite Ha. destruct (colfrom L) as [f|]; [|done]. destruct (Hf f eq_refl) as [H1 H2]. by apply sw_ne.
Qed.
Lemma sigma_act2 y x z : act (rsws L) x = z -> (forall f, colfrom L = Some f -> z <> f /\ z <> 2 * y) -> sigma L y x = z.
Proof.
  intros Ha Hf. unfold sigma. rewrite Ha. destruct (colfrom L) as [f|]; [|done]. destruct (Hf f eq_refl) as [H1 H2]. by apply sw_ne.
Qed.

Lemma next_pair k x : next_row L !! k = Some x -> exists p, rps L !! k = Some p.
Proof. intros Hk. apply lookup_lt_Some in Hk. rewrite next_row_length in Hk. by apply lookup_lt_is_Some. Qed.
Lemma next_spec k p : rps L !! k = Some p ->
  match next_row L !! k with
  | Some (Some c) =>
      (exists a b, p = (Some a, Some b) /\ c = a ++ b) \/
      (exists t f d, hole (N.of_nat k) p = Some t /\ (f, t) ∈ rsws L /\ cont L f = Some d /\ c = fillc p d)
  | Some None =>
      p = (None, None) \/
      exists t, hole (N.of_nat k) p = Some t /\
        ((exists t', (sib t, t') ∈ rsws L /\ t' ∈ rsing L) \/
         (last (rsing L) = Some t /\ ri L = None /\ Nat.odd (length (rsing L)) = true))
  | None => False
  end.
Proof.
  intros Hk. pose proof (cont_root L) as Hr.
  pose proof (refill_spec (row_root L) (ri L) (cont L) (rps L)) as Hs.
  specialize (Hs ltac:(intros r Er; by rewrite Er in Hr) ltac:(intros Er; by rewrite Er in Hr) false 0 k p (cont_agrees L) Hk).
  rewrite N.add_0_l in Hs. change (refill false (row_root L) (rps L)) with (next_row L) in Hs.
  destruct (next_row L !! k) as [[c|]|]; [done| |done].
  destruct Hs as [?|(t & Ht & [Hd|[[? ?]|(Hl & Hrr & Ho)]])]; [by left|right..]; exists t; (split; [done|]); [by left|done|right].
  split; [done|]. split; [|done]. destruct (ri L); [|done]. destruct Hr as [_ [d Hd]]. congruence.
Qed.

Lemma hole_dead k p t : rps L !! k = Some p -> hole (N.of_nat k) p = Some t ->
  L !! N.to_nat t = Some None /\ t ∈ rsing L /\ t / 2 = N.of_nat k.
Proof.
  intros Hk Hh. pose proof (hole_half _ _ _ Hh) as E. split; [|split; [|done]].
  - destruct p as [x y]. apply pair_up_lookup in Hk as [H1 H2]. destruct x, y; cbn [hole] in Hh; try done; apply (inj Some) in Hh; subst t.
    + by replace (N.to_nat (2 * N.of_nat k + 1)) with (2 * k + 1)%nat by lia.
    + by replace (N.to_nat (2 * N.of_nat k)) with (2 * k)%nat by lia.
  - apply singles_elem. exists k, p. split; [done|]. by rewrite N.add_0_l.
Qed.
Lemma rsing_dead t : t ∈ rsing L -> L !! N.to_nat t = Some None.
Proof. intros (k & p & Hk & Hh)%singles_elem. rewrite N.add_0_l in Hh. by eapply hole_dead. Qed.

(** Alive slots of the next row are built from alive slots of this row. *)
Lemma row_alive k c y : next_row L !! k = Some (Some c) -> y <> N.of_nat k ->
  exists a b i0 i1, c = a ++ b /\ cont L i0 = Some a /\ cont L i1 = Some b /\
    sigma L y i0 = 2 * N.of_nat k /\ sigma L y i1 = 2 * N.of_nat k + 1 /\
    ((i0 = 2 * N.of_nat k /\ i1 = 2 * N.of_nat k + 1) \/ exists f t, (f, t) ∈ rsws L /\ t / 2 = N.of_nat k).
Proof.
  intros Hk Hy. destruct (next_pair _ _ Hk) as [p Hp]. pose proof (next_spec _ _ Hp) as Hs. rewrite Hk in Hs.
  pose proof (cont_agrees L _ _ Hp) as [Hc0 Hc1]. rewrite N.add_0_l in Hc0, Hc1.
  destruct Hs as [(a & b & -> & ->)|(t & f & d & Hh & Hf & Hd & ->)].
  - cbn [fst snd] in *. pose proof (no_hole_half (N.of_nat k) (Some a, Some b)) as Hn. rewrite Nat2N.id in Hn.
    destruct (Hn Hp eq_refl) as [Hx Hcf].
    assert (H0 : 2 * N.of_nat k / 2 = N.of_nat k) by dlia. assert (H1 : (2 * N.of_nat k + 1) / 2 = N.of_nat k) by dlia.
    exists a, b, (2 * N.of_nat k), (2 * N.of_nat k + 1). do 3 (split; [done|]).
    split; [|split; [|by left]].
    + apply sigma_act; [apply act_half; by rewrite H0|]. intros f Hf%Hcf. split; [intros <-; lia|lia].
    + apply sigma_act; [apply act_half; by rewrite H1|]. intros f Hf%Hcf. split; [intros <-; lia|lia].
  - destruct (hole_dead _ _ _ Hp Hh) as (_ & Ht & Hth).
    destruct (act_pair _ _ _ rsws_nodup Hf) as [Haf Hat]. destruct (ends_in _ _ _ Hf) as [Hef Het].
    assert (Hcf : forall f', colfrom L = Some f' -> f' / 2 <> N.of_nat k).
    { intros f' Hf'%colfrom_half E. apply Hf'. rewrite E, <- Hth. by apply half_in. }
    assert (Has : act (rsws L) (sib t) = sib t) by (apply act_sib; by rewrite sib_sib).
    assert (Hst : sigma L y f = t).
    { apply sigma_act2; [done|]. intros f' Hf'%Hcf. split; [intros ->; lia|]. intros ->. apply Hy. rewrite <- Hth. dlia. }
    assert (Hss : sigma L y (sib t) = sib t).
    { apply sigma_act; [done|]. intros f' Hf'%Hcf. pose proof (sib_half t). split; [intros <-; lia|].
      intros E. apply Hy. rewrite <- Hth, <- (sib_half t), E. dlia. }
    destruct (hole_cont _ _ _ _ Hh Hc0 Hc1) as (_ & Hsv & _).
    assert (Hs0 : sib (2 * N.of_nat k) = 2 * N.of_nat k + 1) by (unfold sib; rewrite even_mod; destruct (N.eqb_spec (2 * N.of_nat k mod 2) 0); dlia).
    destruct p as [[a|] [b|]]; cbn [hole fst snd survivor fillc] in *; try done; apply (inj Some) in Hh; subst t.
    + exists a, d, (2 * N.of_nat k), f. rewrite <- Hs0, sib_sib in Hss. rewrite Hss.
      do 5 (split; [done|]). right. eauto.
    + exists d, b, f, (2 * N.of_nat k + 1). rewrite Hs0 in Hss. rewrite Hss.
      do 5 (split; [done|]). right. eauto.
Qed.

(** The new root of the row goes to the left child of the tail. *)
Lemma row_root_moved y :
  match new_root (row_root L) (rps L) with
  | Some c => exists f, colfrom L = Some f /\ cont L f = Some c /\ sigma L y f = 2 * y
  | None => colfrom L = None
  end.
Proof.
  unfold new_root. pose proof (cont_root L) as Hr. rewrite <- (singles_length 0). fold (rsing L).
  assert (Hm : forall f, colfrom L = Some f -> sigma L y f = 2 * y).
  { intros f Hf. unfold sigma. rewrite Hf, colfrom_act by done. apply sw_l. }
  assert (Hl : Nat.even (length (rsing L)) = false -> exists t, last (rsing L) = Some t).
  { destruct (rsing L) as [|u l]; [done|]. intros _. destruct (last (u :: l)) eqn:E; [by eexists|]. by apply last_None in E. }
  unfold colfrom in *. destruct (Nat.even (length (rsing L))) eqn:He.
  - destruct (ri L) as [r|] eqn:Er; [|by rewrite Hr]. destruct Hr as [Hc [d Hd]]. rewrite Hd in *. exists r. auto.
  - destruct (ri L) as [r|] eqn:Er; [destruct Hr as [Hc [d Hd]]; by rewrite Hd|]. rewrite Hr.
    destruct (Hl eq_refl) as [t Et]. rewrite Et in *. cbn [fmap option_fmap option_map] in *.
    assert (last (omap survivor (rps L)) = cont L (sib t) /\ is_Some (cont L (sib t))) as [Hls [d Hd]].
    { clear - Et. unfold rsing in Et. pose proof (cont_agrees L) as Ha. revert Et Ha. generalize (cont L). intros cnt.
      generalize 0 as m. induction (rps L) as [|p ps IH]; intros m Et Ha; [done|]. cbn [singles] in Et.
      apply agrees_tail in Ha as (Ha & H1 & H2).
      change (omap survivor (p :: ps)) with (match survivor p with Some y => y :: omap survivor ps | None => omap survivor ps end).
      destruct (hole m p) as [u|] eqn:Eh.
      - destruct (hole_cont _ _ _ _ Eh H1 H2) as (_ & Hsu & [d Ed]). rewrite Ed in Hsu.
        destruct (singles (m + 1) ps) as [|v l] eqn:Es.
        + assert (omap survivor ps = []) as Ho.
          { apply nil_length_inv. rewrite <- (singles_length (m + 1)), Es. done. }
          rewrite Ho. cbn in Et. injection Et as <-. rewrite Ed, Hsu. split; [done|by eexists].
        + assert (Et' : last (singles (m + 1) ps) = Some t) by (by rewrite Es).
          destruct (IH (m + 1) Et' Ha) as [IH1 IH2]. split; [|done]. rewrite <- IH1.
          rewrite Ed. destruct (omap survivor ps) eqn:Eo; [|done].
          pose proof (singles_length (m + 1) ps) as Hlen. rewrite Es, Eo in Hlen. done.
      - assert (survivor p = None) as -> by (destruct p as [[|] [|]]; done). by apply (IH (m + 1)). }
    rewrite Hls, Hd. exists (sib t). auto.
Qed.

(** The tail: twice through the map is the identity, and it starts dead. *)
Lemma tail_step y : next_row L !! N.to_nat y = Some None ->
  sigma L y (sigma L y (2 * y + bit L)) = 2 * y + bit L /\
  L !! N.to_nat (sigma L y (2 * y + bit L)) = Some None.
Proof.
  intros Hk. destruct (next_pair _ _ Hk) as [p Hp]. pose proof (next_spec _ _ Hp) as Hs. unfold chunk in *. rewrite Hk, N2Nat.id in Hs.
  assert (Hb : bit L = 0 /\ colfrom L = None \/ bit L = 1 /\ exists f, colfrom L = Some f).
  { unfold bit. destruct (colfrom L); [right; eauto|by left]. }
  assert (H0 : 2 * y / 2 = y) by dlia. assert (H1 : (2 * y + 1) / 2 = y) by dlia.
  destruct Hs as [->|(t & Hh & [(t' & Hst & Ht')|(Hl & Hri & Ho)])].
  - pose proof (no_hole_half y (None, None) Hp eq_refl) as [Hx Hcf].
    apply pair_up_lookup in Hp as [Hp0 Hp1].
    assert (Hfix : sigma L y (2 * y + bit L) = 2 * y + bit L).
    { destruct Hb as [[-> Hb]|[-> [f Hb]]].
      - unfold sigma. rewrite Hb. apply act_half. rewrite N.add_0_r. by rewrite H0.
      - apply sigma_act; [apply act_half; by rewrite H1|]. intros f' Hf'%Hcf. split; [intros <-; lia|lia]. }
    rewrite !Hfix. split; [done|]. destruct Hb as [[-> _]|[-> _]].
    + by replace (N.to_nat (2 * y + 0)) with (2 * N.to_nat y)%nat by lia.
    + by replace (N.to_nat (2 * y + 1)) with (2 * N.to_nat y + 1)%nat by lia.
  - rewrite <- (N2Nat.id y) in Hh. destruct (hole_dead _ _ _ Hp Hh) as (Hdt & Ht & Hth). rewrite N2Nat.id in *.
    destruct (act_pair _ _ _ rsws_nodup Hst) as [Haf Hat]. destruct (ends_in _ _ _ Hst) as [Hes Het].
    assert (Hfixt : act (rsws L) t = t) by (by apply act_sib).
    pose proof (ends_pair_half _ _ _ rsws_halves Hst) as Hne. rewrite sib_half, Hth in Hne.
    assert (Hcf : forall f', colfrom L = Some f' -> f' / 2 <> y /\ f' / 2 <> t' / 2).
    { intros f' Hf'%colfrom_half. split; intros E; apply Hf'; rewrite E.
      - rewrite <- Hth, <- sib_half. by apply half_in.
      - by apply half_in. }
    destruct Hb as [[-> Hb]|[-> [f Hb]]].
    + rewrite N.add_0_r. unfold sigma. rewrite Hb.
      destruct (half_cases (2 * y) t) as [E|E]; [by rewrite H0|rewrite E, Hfixt, Hfixt; done|].
      rewrite E, Haf, Hat. split; [done|]. by apply rsing_dead.
    + assert (Hy2 : t' <> 2 * y) by (intros ->; lia).
      destruct (half_cases (2 * y + 1) t) as [E|E]; [by rewrite H1|..].
      * assert (Hfix : sigma L y (2 * y + 1) = 2 * y + 1).
        { apply sigma_act; [by rewrite E|]. intros f' [Hf' _]%Hcf. split; [intros <-; lia|lia]. }
        rewrite !Hfix. split; [done|]. by rewrite E.
      * assert (Hg : sigma L y (2 * y + 1) = t').
        { apply sigma_act2; [by rewrite E|]. intros f' [_ Hf']%Hcf. split; [by intros ->|done]. }
        rewrite Hg. split; [|by apply rsing_dead].
        apply sigma_act2; [by rewrite Hat, E|]. intros f' [Hf' _]%Hcf. split; [intros <-; lia|lia].
  - rewrite <- (N2Nat.id y) in Hh. destruct (hole_dead _ _ _ Hp Hh) as (Hdt & Ht & Hth). rewrite N2Nat.id in *.
    assert (Hcf : colfrom L = Some (sib t)).
    { unfold colfrom. rewrite <- Nat.negb_odd, Ho, Hri, Hl. done. }
    assert (Hbit : bit L = 1) by (unfold bit; by rewrite Hcf). rewrite Hbit.
    pose proof (colfrom_half _ Hcf) as Hx. rewrite sib_half in Hx.
    assert (Ha : act (rsws L) (2 * y + 1) = 2 * y + 1) by (apply act_half; rewrite H1; by rewrite <- Hth).
    assert (Ha0 : act (rsws L) (2 * y) = 2 * y) by (apply act_half; rewrite H0; by rewrite <- Hth).
    unfold sigma. rewrite Hcf, Ha.
    destruct (half_cases (2 * y + 1) t) as [E|E]; [by rewrite H1|..].
    + assert (Es : sib t = 2 * y).
      { destruct (half_cases (2 * y) t) as [E2|E2]; [by rewrite H0|lia|done]. }
      rewrite Es, !sw_same, Ha. split; [done|]. by rewrite E.
    + assert (Et : t = 2 * y).
      { destruct (half_cases (2 * y) t) as [E2|E2]; [by rewrite H0|done|lia]. }
      rewrite <- E, sw_l, Ha0, sw_r. split; [done|]. by rewrite <- Et.
Qed.
End OneRow.

(** ** The tail of the whole deletion *)
Lemma no_dead_alive L k : dead 0 L = [] -> L !! k <> Some None.
Proof.
  intros E Hk. assert (N.of_nat k ∈ dead 0 L) as Hin.
  { apply dead_elem. split; [lia|]. by replace (N.to_nat (N.of_nat k - 0)) with k by lia. }
  rewrite E in Hin. by apply elem_of_nil in Hin.
Qed.
Lemma dead_alive L : (forall k, L !! k <> Some None) -> dead 0 L = [].
Proof.
  intros Hk. destruct (dead 0 L) as [|i l] eqn:E; [done|]. assert (i ∈ dead 0 L) as Hin by (rewrite E; by left).
  apply dead_elem in Hin as [_ Hin]. by apply Hk in Hin.
Qed.
Lemma pair_up_left {A} (L : list A) : size L = 2 * size (pair_up L).1 + match (pair_up L).2 with Some _ => 1 | None => 0 end.
Proof. unfold size. rewrite (pair_up_length L) at 1. destruct (pair_up L).2; lia. Qed.
Lemma pair_up_elem {A} (L : list A) k x : L !! k = Some x ->
  (exists p, (pair_up L).1 !! (k / 2)%nat = Some p /\ (x = p.1 \/ x = p.2)) \/
  (k = 2 * length (pair_up L).1)%nat /\ (pair_up L).2 = Some x.
Proof.
  revert k. induction L as [|a|a b L IH] using pair_up_ind; intros k Hk; [done|..].
  - destruct k; [|done]. injection Hk as <-. right. done.
  - cbn [pair_up fst snd]. destruct k as [|[|k]].
    + injection Hk as <-. left. exists (a, b). split; [done|by left].
    + injection Hk as <-. left. exists (a, b). split; [done|by right].
    + change (L !! k = Some x) in Hk. destruct (IH k Hk) as [(p & Hp & Hx)|[E Hr]].
      * left. exists p. split; [|done]. replace (S (S k) / 2)%nat with (S (k / 2))%nat; [done|].
        replace (S (S k)) with (1 * 2 + k)%nat by lia. by rewrite Nat.div_add_l by lia.
      * right. split; [|done]. cbn [length]. lia.
Qed.
Lemma full_row L : dead 0 L = [] -> rsing L = [] /\ rsws L = [] /\ dead 0 (next_row L) = [] /\
  colfrom L = ri L /\ bit L = size L mod 2 /\ (forall r, ri L = Some r -> r = 2 * (size L / 2)).
Proof.
  intros E. assert (Hs : rsing L = []).
  { destruct (rsing L) as [|t l] eqn:El; [done|]. assert (t ∈ rsing L) as Ht%rsing_dead by (rewrite El; by left).
    by apply no_dead_alive in Ht. }
  assert (Hw : rsws L = []) by (unfold rsws; by rewrite Hs).
  assert (Hc : colfrom L = ri L) by (unfold colfrom; by rewrite Hs).
  split; [done|]. split; [done|]. split; [|split; [done|split]].
  - apply dead_alive. intros k Hk. destruct (next_pair _ _ _ Hk) as [p Hp]. pose proof (next_spec _ _ _ Hp) as Hx.
    unfold chunk in *. rewrite Hk in Hx. destruct Hx as [->|(t & Ht & _)].
    + apply pair_up_lookup in Hp as [Hp _]. by apply no_dead_alive in Hp.
    + destruct (hole_dead _ _ _ _ Hp Ht) as (Hd & _). by apply no_dead_alive in Hd.
  - unfold bit. rewrite Hc. unfold ri. pose proof (pair_up_left L) as Hl.
    destruct (pair_up L).2 as [[c|]|] eqn:E2.
    + dlia.
    + apply pair_up_root in E2. by apply no_dead_alive in E2.
    + dlia.
  - intros r Hr. pose proof (ri_half _ _ Hr) as H2. rewrite (ri_even _ _ Hr), H2, size_rps. done.
Qed.
Lemma tail_end L : dead 0 L <> [] -> dead 0 (next_row L) = [] -> forall y, y = size (next_row L) ->
  colfrom L = None /\ size L = 2 * y + 1 /\
  sigma L y (sigma L y (2 * y + bit L)) = 2 * y + bit L /\
  L !! N.to_nat (sigma L y (2 * y + bit L)) = Some None.
Proof.
  intros Hd Hn y Hy.
  assert (Hps : y = size (rps L)) by (rewrite Hy, next_row_size; symmetry; apply size_rps).
  assert (Hpairs : forall k p, rps L !! k = Some p -> p <> (None, None)).
  { intros k p Hp ->. pose proof (next_spec _ _ _ Hp) as Hx. destruct (next_row L !! k) as [[c|]|] eqn:E; [| |done].
    - destruct Hx as [(? & ? & ? & _)|(t & f & d & Hh & _)]; [done|done].
    - by apply no_dead_alive in E. }
  destruct (rsing L) as [|t ts] eqn:Es.
  - (* the dead slot is the root *)
    assert (Hr : (pair_up L).2 = Some None).
    { destruct (dead 0 L) as [|i l] eqn:El; [done|]. assert (i ∈ dead 0 L) as Hi by (rewrite El; by left).
      apply dead_elem in Hi as [_ Hi]. apply pair_up_elem in Hi as [([a b] & Hp & Hi)|[_ Hi]]; [|done].
      pose proof (Hpairs _ _ Hp) as Hne.
      assert (exists u, hole (N.of_nat (N.to_nat (i - 0) / 2)) (a, b) = Some u) as [u Hu].
      { cbn [fst snd] in Hi. destruct Hi as [<-|<-]; [destruct b|destruct a]; try done; by eexists. }
      destruct (hole_dead _ _ _ _ Hp Hu) as (_ & Hx & _). rewrite Es in Hx. by apply elem_of_nil in Hx. }
    assert (Hri : ri L = None) by (unfold ri; by rewrite Hr).
    assert (Hc : colfrom L = None) by (unfold colfrom; by rewrite Es).
    assert (Hw : rsws L = []) by (unfold rsws; by rewrite Es).
    assert (Hb : bit L = 0) by (unfold bit; by rewrite Hc).
    split; [done|]. split; [rewrite (pair_up_left L), Hr; unfold rps in Hps; lia|].
    assert (Hsg : forall x, sigma L y x = x) by (intros x; unfold sigma; by rewrite Hc, Hw).
    rewrite !Hsg, Hb. split; [done|]. apply pair_up_root in Hr. rewrite <- Hr. f_equal. rewrite Hps. unfold size, rps. lia.
  - assert (Hfill : forall u, u ∈ rsing L -> exists f, (f, u) ∈ rsws L).
    { intros u Hu. apply singles_elem in Hu as (k & p & Hp & Hh). rewrite N.add_0_l in Hh.
      pose proof (next_spec _ _ _ Hp) as Hx. destruct (next_row L !! k) as [[c|]|] eqn:E; [| |done].
      - destruct Hx as [(a & b & -> & _)|(t' & f & d & Hh' & Hf & _)]; [done|]. exists f. congruence.
      - by apply no_dead_alive in E. }
    assert (Hts : ts = []).
    { destruct ts as [|t' ts]; [done|]. exfalso.
      assert (Ht' : (sib t', t) ∈ rsws L) by (unfold rsws; rewrite Es; by left).
      destruct (Hfill t') as [f Hf]; [rewrite Es; right; by left|].
      apply ends_in in Ht' as [Ha _]. apply ends_in in Hf as [_ Hb].
      apply (sib_ne t'). symmetry. eapply halves_inj; [apply (rsws_halves L)|done|done|]. symmetry. apply sib_half. }
    subst ts. destruct (ri L) as [r|] eqn:Er.
    + assert (Hw : rsws L = [(r, t)]) by (unfold rsws; by rewrite Es, Er).
      assert (Hc : colfrom L = None) by (unfold colfrom; by rewrite Es, Er).
      assert (Hb : bit L = 0) by (unfold bit; by rewrite Hc).
      assert (Hr : r = 2 * y) by (rewrite (ri_even _ _ Er), (ri_half _ _ Er); lia).
      split; [done|]. split.
      { rewrite (pair_up_left L). unfold ri in Er. destruct (pair_up L).2; [unfold rps in Hps; lia|done]. }
      assert (Hsg : forall x, sigma L y x = sw r t x) by (intros x; unfold sigma; by rewrite Hc, Hw).
      rewrite !Hsg, Hb, N.add_0_r, <- Hr, sw_l, sw_r. split; [done|]. apply rsing_dead. rewrite Es. by left.
    + destruct (Hfill t) as [f Hf]; [rewrite Es; by left|]. unfold rsws in Hf. rewrite Es, Er in Hf. by apply elem_of_nil in Hf.
Qed.
Lemma tailpos_full k : forall L, dead 0 L = [] -> tailpos k L = size L.
Proof.
  induction k as [|k IH]; intros L Hd; cbn [tailpos]; [by apply alive_full|].
  destruct (full_row L Hd) as (_ & Hw & Hn & Hc & Hb & Hr). rewrite IH, next_row_size by done.
  unfold sigma. rewrite Hc, Hw, Hb.
  destruct (ri L) as [r|] eqn:Er.
  - rewrite (Hr r eq_refl), sw_same. unfold act. cbn [fold_left]. dlia.
  - unfold act. cbn [fold_left]. dlia.
Qed.
Lemma tailpos_dead k : forall L, size L <= 2 ^ N.of_nat k -> dead 0 L <> [] -> L !! N.to_nat (tailpos k L) = Some None.
Proof.
  induction k as [|k IH]; intros L Hs Hd; cbn [tailpos].
  - destruct L as [|[c|] [|b L]]; try done; unfold size in Hs; cbn [length] in Hs; change (2 ^ N.of_nat 0) with 1 in Hs; lia.
  - destruct (decide (dead 0 (next_row L) = [])) as [E|E].
    + destruct (tail_end L Hd E _ (tailpos_full k _ E)) as (_ & _ & _ & Hx). done.
    + apply tail_step. apply IH; [|done]. rewrite next_row_size. rewrite pow_nat_S in Hs. revert Hs. generalize (2 ^ N.of_nat k). intros P Hs. dlia.
Qed.
Lemma sigma_full k L : dead 0 L = [] -> forall x, sigma L (tailpos k (next_row L)) x = x.
Proof.
  intros Hd x. destruct (full_row L Hd) as (_ & Hw & Hn & Hc & Hb & Hr). unfold sigma. rewrite Hc, Hw.
  destruct (ri L) as [r|] eqn:Er; [|done]. rewrite tailpos_full, next_row_size, (Hr r eq_refl), sw_same by done. done.
Qed.
Lemma sigma_tail k L : size L <= 2 ^ N.of_nat (S k) ->
  sigma L (tailpos k (next_row L)) (tailpos (S k) L) = 2 * tailpos k (next_row L) + bit L.
Proof.
  intros Hs. cbn [tailpos]. destruct (decide (dead 0 L = [])) as [E|E]; [by rewrite !sigma_full|].
  destruct (decide (dead 0 (next_row L) = [])) as [E'|E'].
  - by destruct (tail_end L E E' _ (tailpos_full k _ E')) as (_ & _ & Hx & _).
  - apply tail_step. apply tailpos_dead; [|done]. rewrite next_row_size. rewrite pow_nat_S in Hs. revert Hs. generalize (2 ^ N.of_nat k). intros P Hs. dlia.
Qed.
