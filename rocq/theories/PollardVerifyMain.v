(** * PollardVerifyMain: Verify as a whole (proofs) *)
From stdpp Require Import sorting.
From Verif Require Import Base StateModel CodecModel ForestModel PollardModel PosSpec PosFacts PathFacts MerkleSpec CodecSpec CodecFacts TargetFacts ForestFacts
  RowFacts TransformFacts RemoveFacts ForestInv ForestSpec ProofSpec TakeFacts ProveFacts PollardRep PollardOps PollardAdd PollardRemove PollardRows PollardInit PollardCreate PollardVerify.
From Coq Require Import ZifyBool ZifyNat ZifyN.
Ltac Zify.zify_post_hook ::= idtac.
Ltac dlia := zify; Z.div_mod_to_equations; lia.

(** ** Undoing the insertions *)
Definition chopped (t : list wnode) (rec : list (N * chop)) (l : loc) (b : bool) : Prop :=
  exists x ch w, (x, ch) ∈ rec /\ t !! N.to_nat x = Some w /\ w_sib w = Some l /\ covers ch b.

Lemma recover_one (t : list wnode) (h : heap) x ch w l : t !! N.to_nat x = Some w -> w_sib w = Some l -> is_Some (h !! l) ->
  exists h', recover t h (x, ch) = Ok h' /\ (forall y, is_Some (h' !! y) <-> is_Some (h !! y)) /\ (forall y, hv h' y = hv h y) /\
    forall y b, (y = l /\ covers ch b /\ nc h' (Some y) b = None) \/ (~ (y = l /\ covers ch b) /\ nc h' (Some y) b = nc h (Some y) b).
Proof.
  intros Ew Es [nd End]. unfold recover. cbn [fst snd]. rewrite (vec_get_eq _ _ _ Ew). cbn [bind]. rewrite Es.
  assert (Hgen : forall nd', i_hash nd' = i_hash nd -> (forall b, (covers ch b /\ niece nd' b = None) \/ (~ covers ch b /\ niece nd' b = niece nd b)) ->
    (forall y, is_Some (<[l := nd']> h !! y) <-> is_Some (h !! y)) /\ (forall y, hv (<[l := nd']> h) y = hv h y) /\
    forall y b, (y = l /\ covers ch b /\ nc (<[l := nd']> h) (Some y) b = None) \/ (~ (y = l /\ covers ch b) /\ nc (<[l := nd']> h) (Some y) b = nc h (Some y) b)).
  { intros nd' Eh Hb. split; [|split].
    - intros y. apply is_Some_insert. by rewrite End.
    - intros y. rewrite hv_insert. destruct (decide (y = l)) as [->|]; [|done]. unfold hv. by rewrite End.
    - intros y b. rewrite nc_insert. destruct (decide (Some y = Some l)) as [[= ->]|Hne].
      + destruct (Hb b) as [[? ?]|[? E]]; [by left|]. right. split; [by intros [_ ?]|]. by rewrite E, (nc_some _ _ _ _ End).
      + right. split; [|done]. intros [-> _]. done. }
  destruct ch; unfold chop_side, chop_node; rewrite (deref_ok _ _ _ End); cbn [bind fst snd]; eexists; (split; [done|]); apply Hgen; try done;
    intros b; destruct b; cbn; auto.
Qed.
Lemma recover_ok (t : list wnode) rec : forall h : heap, (forall x ch, (x, ch) ∈ rec -> exists w l, t !! N.to_nat x = Some w /\ w_sib w = Some l /\ is_Some (h !! l)) ->
  exists h', foldM (recover t) h rec = Ok h' /\ (forall y, is_Some (h' !! y) <-> is_Some (h !! y)) /\ (forall y, hv h' y = hv h y) /\
    forall y b, (chopped t rec y b /\ nc h' (Some y) b = None) \/ (~ chopped t rec y b /\ nc h' (Some y) b = nc h (Some y) b).
Proof.
  induction rec as [|[x ch] rec IH]; intros h Hrec.
  - exists h. split_and!; try done. intros y b. right. split; [|done]. intros (x & ch & w & ?%elem_of_nil & _). done.
  - destruct (Hrec x ch ltac:(left)) as (w & l & Ew & Es & Hl).
    destruct (recover_one t h x ch w l Ew Es Hl) as (h1 & E1 & I1 & V1 & N1).
    destruct (IH h1) as (h2 & E2 & I2 & V2 & N2).
    { intros x' ch' Hx. destruct (Hrec x' ch' ltac:(by right)) as (w' & l' & ? & ? & ?). exists w', l'. split_and!; try done. by apply I1. }
    exists h2. split; [cbn [foldM]; rewrite E1; cbn [bind]; exact E2|]. split; [intros y; by rewrite I2|]. split; [intros y; by rewrite V2|].
    intros y b. destruct (N2 y b) as [[(x' & ch' & w' & ? & ? & ? & ?) ?]|[Hnc E]].
    + left. split; [|done]. exists x', ch', w'. split_and!; try done. by right.
    + destruct (N1 y b) as [(-> & Hc & En)|[Hne En]].
      * left. split; [|by rewrite E]. exists x, ch, w. split_and!; try done. left.
      * right. split; [|by rewrite E]. intros (x' & ch' & w' & Hin & H2 & H3 & H4).
        apply elem_of_cons in Hin as [[= -> ->]|Hin]; [|apply Hnc; by exists x', ch', w'].
        rewrite Ew in H2. injection H2 as <-. rewrite Es in H3. injection H3 as <-. by apply Hne.
Qed.

Section Undo.
Context (n : N) (p0 : pollard) (L0 : lmap) (M0 : N -> bool) (g : nat -> N -> hash).
Notation T := (trees n).
Context (HR0 : rep p0 T L0 M0).
Context (cs : list (nat * N)) (L : lmap) (p : pollard) (t : list wnode) (M : N -> bool) (rec : list (N * chop)).
Context (Hcs : forall r j, (r, j) ∈ cs -> inT T r j) (Hsome : forall r j, (r, j) ∈ cs -> is_Some (L r (hp T r j))) (Hroots : take (length T) cs = tcs n) (Hlen : length t = length cs).
Context (Hw : forall x r i, cs !! x = Some (r, i) -> exists w, t !! x = Some w /\ w_node w = L r i /\ w_sib w = L r (hp T r i)).
Context (Hsub : forall r i l, L0 r i = Some l -> L r i = Some l).
Context (HR : rep p T L M) (Hold : agree p T L0 g) (HRI : RI L0 rec cs L).

Lemma roots_tab : pr_node <$> roots_of_tab t (length (p_roots p0)) = (λ t : N * N, L (N.to_nat t.1) t.2) <$> T.
Proof.
  assert (Elen : length (p_roots p0) = length T).
  { pose proof (f_equal length (rp_roots _ _ _ _ HR0)) as El. by rewrite !fmap_length in El. }
  unfold roots_of_tab. rewrite <- list_fmap_compose, Elen. apply list_eq. intros x. rewrite !list_lookup_fmap.
  assert (Ex : tcs n !! x = (λ t : N * N, (N.to_nat t.1, t.2)) <$> T !! x) by (unfold tcs; by rewrite list_lookup_fmap).
  destruct (T !! x) as [[a b]|] eqn:E.
  - cbn [fmap option_fmap option_map fst snd] in Ex |- *. assert (Hlt : (x < length T)%nat) by (by eapply lookup_lt_Some).
    rewrite <- Hroots, lookup_take in Ex by done. destruct (Hw x _ _ Ex) as (w & Ew & E1 & _). rewrite lookup_take by done. rewrite Ew.
    cbn [fmap option_fmap option_map]. unfold compose. cbn [pr_node]. by rewrite E1.
  - apply lookup_ge_None in E. rewrite lookup_take_ge by done. done.
Qed.
Lemma rec_holder x ch : (x, ch) ∈ rec -> exists r d w, cs !! N.to_nat x = Some (S r, d) /\ inT T (S r) d /\ t !! N.to_nat x = Some w /\ w_sib w = L (S r) (hp T (S r) d) /\ is_Some (L (S r) (hp T (S r) d)) /\
  forall y, y / 2 = d -> covers ch (N.odd y) -> L0 r y = None.
Proof.
  intros Hx. destruct (ri_src _ _ _ _ HRI x ch Hx) as (r & d & Ec & Hz). destruct (Hw _ _ _ Ec) as (w & Ew & _ & Es). pose proof (elem_of_list_lookup_2 _ _ _ Ec) as Hin.
  exists r, d, w. split_and!; [done|by apply Hcs|done|done|by apply Hsome|done].
Qed.
Lemma undo_ok : exists h, foldM (recover t) (p_heap p) rec = Ok h /\
  rep (p_set_roots (p_set_heap p h) (roots_of_tab t (length (p_roots p0)))) T L0 (λ i, match L0 0%nat (hp T 0 i) with Some _ => M i | None => false end) /\
  agree (p_set_roots (p_set_heap p h) (roots_of_tab t (length (p_roots p0)))) T L0 g.
Proof.
  destruct (recover_ok t rec (p_heap p)) as (h & E & Hi & Hv & Hnc).
  { intros x ch Hx. destruct (rec_holder x ch Hx) as (r & d & w & Ec & Hin & Ew & Es & [l Hl] & _). exists w, l. rewrite Es. split_and!; try done.
    destruct (rp_dom _ _ _ _ HR _ _ _ (inT_hp _ _ _ (trees_disj n) Hin) Hl) as (_ & _ & ?). done. }
  exists h. split; [done|]. split.
  - split; cbn [p_set_roots p_set_heap p_roots p_heap p_next].
    + apply HR.
    + rewrite roots_tab. apply list_fmap_ext. intros x [a b] Ex. apply elem_of_list_lookup_2 in Ex. cbn [fst snd].
      assert (Ea : (N.of_nat (N.to_nat a), b) ∈ T) by (by rewrite N2Nat.id). destruct (rp_root _ _ _ _ HR0 _ _ Ea) as [l El]. rewrite El. by apply Hsub.
    + apply HR0.
    + intros r i l Hin El. apply Hsub in El. destruct (rp_dom _ _ _ _ HR r i l Hin El) as (? & ? & ?). split_and!; try done. by apply Hi.
    + intros r i r' i' l H1 H2 E1%Hsub E2%Hsub. by apply (rp_inj _ _ _ _ HR r i r' i' l).
    + intros r x Hx. destruct (L0 (S r) (hp T (S r) (x / 2))) as [l|] eqn:El.
      * pose proof (Hsub _ _ _ El) as El'. pose proof (rp_kid _ _ _ _ HR r x Hx) as Hk. rewrite El' in Hk.
        destruct (Hnc l (N.odd x)) as [[(x' & ch & w & Hx' & Ew & Es & Hc) ->]|[Hno ->]].
        -- destruct (rec_holder x' ch Hx') as (r' & d & w' & Ec & Hin & Ew' & Es' & _ & Hz). rewrite Ew in Ew'. injection Ew' as <-. rewrite Es in Es'.
           symmetry in Es'. destruct (rp_inj _ _ _ _ HR _ _ _ _ _ (inT_hp _ _ _ (trees_disj n) Hin) (inT_hp _ _ _ (trees_disj n) Hx) Es' El') as [Er Ed].
           injection Er as ->. apply hp_inj in Ed; [|apply trees_disj|done|done]. rewrite Hz; done.
        -- rewrite Hk. destruct (L0 r x) as [l'|] eqn:E0; [by apply Hsub|]. destruct (L r x) as [l'|] eqn:E1; [|done]. exfalso. apply Hno.
           destruct (ri_all _ _ _ _ HRI r x E0 ltac:(by rewrite E1)) as (x' & ch & Hx' & Ec & Hc). destruct (Hw _ _ _ Ec) as (w & Ew & _ & Es).
           exists x', ch, w. split_and!; try done. by rewrite Es.
      * symmetry. by destruct (rep_absent _ _ _ _ HR0 r x Hx El).
    + intros i Hx. destruct (L0 0%nat (hp T 0 i)) as [l|] eqn:El; [|done]. pose proof (Hsub _ _ _ El) as El'. pose proof (rp_leaf _ _ _ _ HR i Hx) as Hk. rewrite El' in Hk.
      destruct (Hnc l false) as [[(x' & ch & w & Hx' & Ew & Es & Hc) _]|[_ ->]]; [|done]. exfalso.
      destruct (rec_holder x' ch Hx') as (r' & d & w' & Ec & Hin & Ew' & Es' & _ & Hz). rewrite Ew in Ew'. injection Ew' as <-. rewrite Es in Es'.
      symmetry in Es'. by destruct (rp_inj _ _ _ _ HR _ _ _ _ _ (inT_hp _ _ _ (trees_disj n) Hin) (inT_hp _ _ _ (trees_disj n) Hx) Es' El') as [Er Ed].
    + intros i Hx. destruct (L0 0%nat (hp T 0 i)) as [l|] eqn:El; [|done]. pose proof (Hsub _ _ _ El) as El'. pose proof (rp_leaf' _ _ _ _ HR i Hx) as Hk. rewrite El' in Hk.
      destruct (Hnc l true) as [[_ ->]|[_ ->]]; done.
    + apply HR.
  - intros r i l Hin El. cbn [p_set_roots p_set_heap p_heap]. rewrite Hv. by apply Hold.
Qed.
End Undo.

(** ** Small lists *)
Definition pm_add (m : gmap N N) (hps : list (hash * N)) : gmap N N := foldl (λ m hp, <[hp.1 := hp.2]> m) m hps.
Lemma posmap_loop_from (a b : list N) : length a = length b -> forall (pa pb : list N) (m : gmap N N), length pa = length pb ->
  foldM (λ m i, let* h := vec_get (pa ++ a) i in let* pos := vec_get (pb ++ b) i in Ok (<[h := pos]> m)) m (nseq (size pa) (size a)) = Ok (pm_add m (zip a b)).
Proof.
  revert b. induction a as [|x a IH]; intros [|y b] El pa pb m Ep; try done.
  replace (size (x :: a)) with (size a + 1) by (unfold size; cbn [length]; lia). rewrite nseq_cons. cbn [foldM].
  rewrite (vec_get_eq _ _ x). 2: { unfold size. rewrite Nat2N.id, lookup_app_r, Nat.sub_diag by lia. done. } cbn [bind].
  rewrite (vec_get_eq _ _ y). 2: { unfold size. rewrite Nat2N.id, Ep, lookup_app_r, Nat.sub_diag by lia. done. } cbn [bind].
  change (zip (x :: a) (y :: b)) with ((x, y) :: zip a b).
  pose proof (IH b ltac:(by injection El) (pa ++ [x]) (pb ++ [y]) (<[x := y]> m)) as IH'.
  rewrite <- !app_assoc in IH'. cbn [app] in IH'. unfold size in IH' at 1. rewrite !app_length in IH'. cbn [length] in IH'.
  replace (size pa + 1) with (N.of_nat (length pa + 1)) by (unfold size; lia). apply IH'. lia.
Qed.
Lemma posmap_loop (a b : list N) (m : gmap N N) : length a = length b ->
  foldM (λ m i, let* h := vec_get a i in let* pos := vec_get b i in Ok (<[h := pos]> m)) m (nseq 0 (size a)) = Ok (pm_add m (zip a b)).
Proof. intros E. exact (posmap_loop_from a b E [] [] m eq_refl). Qed.
Lemma or_all {A} (C : Prop) (P : A -> Prop) (l : list A) : (forall x, x ∈ l -> C \/ P x) -> C \/ forall x, x ∈ l -> P x.
Proof.
  induction l as [|x l IH]; intros Hl; [right; by intros x ?%elem_of_nil|].
  destruct (Hl x ltac:(left)) as [|Hx]; [by left|]. destruct IH as [|IH]; [intros; apply Hl; by right|by left|]. right.
  intros y [->|Hy]%elem_of_cons; auto.
Qed.
Lemma belowp_below n ts k : below n (nrow n ts) k = (λ x : nat * N, enc (NumRows n) (N.of_nat x.1) x.2) <$> belowp n ts k.
Proof. induction k as [|k IH]; cbn [belowp below]; [done|]. rewrite fmap_app, <- IH. f_equal. by rewrite <- list_fmap_compose. Qed.
Lemma needed_rev n (Hn : n <= 2 ^ 62) ts P : lists_nodes (NumRows n) (needed n ts) P ->
  rev P = (λ x : nat * N, enc (NumRows n) (N.of_nat x.1) x.2) <$> belowp n ts (S (N.to_nat (NumRows n))).
Proof.
  intros HP. rewrite <- belowp_below. apply (below_lists n Hn (nrow n ts) (needed n ts)); [|apply nrow_elem| |done].
  - apply nrow_sorted.
  - intros r i Hi%nrow_elem. apply node_slot, (srow_node n ts), srow_elem. by right.
Qed.
Lemma takes_size n (Hn : n <= 2 ^ 62) ts P (f : nat * N -> option N) prf vs rs out : lists_nodes (NumRows n) (needed n ts) P ->
  f <$> belowp n ts (S (N.to_nat (NumRows n))) = vs ++ rs -> takes vs (rev prf) out [] -> size prf + size rs <= size P.
Proof.
  intros HP Ef Ht. apply takes_short in Ht. apply (f_equal length) in Ef. rewrite fmap_length, app_length in Ef. rewrite rev_length in Ht.
  pose proof (f_equal length (needed_rev n Hn ts P HP)) as El. rewrite rev_length, fmap_length in El. unfold size. lia.
Qed.
Lemma hon_length n (Hn : n <= 2 ^ 62) ts L0 g prf P : lists_nodes (NumRows n) (needed n ts) P -> hon n ts L0 g prf -> size prf <= size P.
Proof. intros HP Hh. pose proof (takes_size n Hn ts P (sto L0 g) prf _ [] _ HP (eq_sym (app_nil_r _)) Hh). lia. Qed.
Lemma spent_length n (Hn : n <= 2 ^ 62) ts L0 g prf P : lists_nodes (NumRows n) (needed n ts) P -> spent n ts L0 g prf -> size prf <= size P.
Proof. intros HP [out Ht]. pose proof (takes_size n Hn ts P (sto L0 g) prf _ [] _ HP (eq_sym (app_nil_r _)) Ht). lia. Qed.
Lemma halt_length n (Hn : n <= 2 ^ 62) ts L0 g prf P x : lists_nodes (NumRows n) (needed n ts) P -> halt n ts L0 g prf x -> size prf < size P.
Proof.
  intros HP (vs & rs & out & E & Ht). pose proof (takes_size n Hn ts P (sto L0 g) prf vs (x :: rs) out HP E Ht) as Hx. unfold size in *. cbn [length] in Hx. lia.
Qed.
Lemma wp_weak {A} (Z Z' : Prop) (m : res A) Q : (Z -> Z') -> wp Z m Q -> wp Z' m Q.
Proof. intros Hz. destruct m; cbn [wp]; auto. Qed.

(** ** Soundness: hashes agree from the roots down *)
Section Sound.
Context (H : hash -> hash -> hash) (n : N) (Hn : n <= 2 ^ 62) (ts : list N) (f g : nat -> N -> hash).
Notation cmp := (cmpb n ts).
Context (Hf : forall r d, cmp (S r) d = true -> f (S r) d = H (f r (2 * d)) (f r (2 * d + 1))).
Context (Hg : forall r d, cmp (S r) d = true -> g (S r) d = H (g r (2 * d)) (g r (2 * d + 1))).
Context (Hroot : forall r i, (N.of_nat r, i) ∈ trees n -> f r i = g r i).
Definition differ : Prop := exists r d, cmp (S r) d = true /\ (f r (2 * d), f r (2 * d + 1)) <> (g r (2 * d), g r (2 * d + 1)) /\
  H (f r (2 * d)) (f r (2 * d + 1)) = H (g r (2 * d)) (g r (2 * d + 1)).
Lemma sound_rows : differ \/ forall r i, i ∈ srow n ts r -> f r i = g r i.
Proof.
  assert (Hrow : forall k, differ \/ forall r, (N.to_nat (NumRows n) <= k + r)%nat -> forall i, i ∈ srow n ts r -> f r i = g r i).
  { induction k as [|k IH].
    - right. intros r Hr i Hi. unfold srow in Hi. rewrite crow_top in Hi by lia. apply Hroot.
      apply elem_of_list_filter in Hi. by apply Hi.
    - destruct IH as [|IH]; [by left|]. destruct (or_all (differ) (λ i, f (N.to_nat (NumRows n) - S k)%nat i = g (N.to_nat (NumRows n) - S k)%nat i)
        (srow n ts (N.to_nat (NumRows n) - S k))) as [|Hall]; [|by left|].
      + intros i Hi. unfold srow in Hi. apply elem_of_app in Hi as [Hi|Hi].
        * apply kids_elem in Hi. remember (N.to_nat (NumRows n) - S k)%nat as r eqn:Er. 
          assert (Hc : cmp (S r) (i / 2) = true) by (by apply cmpb_iff, crow_elem).
          assert (Hlt : (N.to_nat (NumRows n) <= k + S r)%nat) by lia.
          assert (E : f (S r) (i / 2) = g (S r) (i / 2)) by (apply IH; [done|]; apply srow_elem; left; by apply cmpb_iff).
          rewrite Hf, Hg in E by done.
          destruct (decide ((f r (2 * (i / 2)), f r (2 * (i / 2) + 1)) = (g r (2 * (i / 2)), g r (2 * (i / 2) + 1)))) as [Ep|Ep].
          -- right. apply pair_equal_spec in Ep as [E1 E2]. destruct (two_half i) as [Ei|Ei]; rewrite Ei; done.
          -- left. by exists r, (i / 2).
        * right. apply Hroot. apply elem_of_list_filter in Hi. by apply Hi.
      + right. intros r Hr i Hi. destruct (decide (N.to_nat (NumRows n) <= k + r)%nat) as [?|Hk]; [by apply IH|].
        assert (r = N.to_nat (NumRows n) - S k)%nat as -> by lia. by apply Hall. }
  destruct (Hrow (N.to_nat (NumRows n))) as [|Hall]; [by left|]. right. intros r i. apply Hall. lia.
Qed.
End Sound.

(** ** Verify *)
Section Main.
Context (H : hash -> hash -> hash) (n : N) (Hn : n <= 2 ^ 62) (p0 : pollard) (L0 : lmap) (M0 : N -> bool) (g : nat -> N -> hash).
Notation R := (NumRows n).
Notation T := (trees n).
Context (Hpn : p_n p0 = n) (HR0 : rep p0 T L0 M0) (Hag : agree p0 T L0 g).
Context (Hg : forall r d, node n (N.of_nat (S r)) d -> g (S r) d = H (g r (2 * d)) (g r (2 * d + 1))).

Definition grown (ts : list N) (M : N -> bool) : Prop :=
  (forall i, inT T 0 i -> M0 i = true -> M i = true) /\ forall i, inT T 0 i -> M i = true -> M0 i = true \/ i ∈ ts.
(** The leaves that a rejected proof leaves marked: the hashes of the proof are used
    up and no target up to this one is stored with another hash. *)
Definition kept (ts : list N) (prf ths : list hash) (i : N) : Prop := is_Some (L0 0%nat (hp T 0 i)) /\ valid_targets n ts /\ length ths = length ts /\ spent n ts L0 g prf /\
  exists x, ts !! x = Some i /\ forall y t th, (y <= x)%nat -> ts !! y = Some t -> ths !! y = Some th -> is_Some (L0 0%nat t) -> g 0%nat t = th.
Definition unchanged (ts : list N) (prf ths : list hash) (p : pollard) : Prop :=
  p_n p = n /\ p_posmap p = p_posmap p0 /\ exists M, grown ts M /\ rep p T L0 M /\ agree p T L0 g /\ forall i, inT T 0 i -> (M i = true <-> M0 i = true \/ kept ts prf ths i).
Definition extended (ts : list N) (prf ths : list hash) (p : pollard) : Prop :=
  p_n p = n /\ p_posmap p = pm_add (p_posmap p0) (zip ths ts) /\ length ths = length ts /\ valid_targets n ts /\
  exists L M, rep p T L M /\ (forall r i l, L0 r i = Some l -> L r i = Some l) /\ (grown ts M /\ (tight T L0 M0 -> tight T L M)) /\
    agree p T L0 g /\ ready n ts L M /\ (hon n ts L0 g prf -> ths = g 0%nat <$> ts -> agree p T L g) /\
    takes (sto L0 g <$> belowp n ts (S (N.to_nat (NumRows n)))) (rev prf) ((λ x : nat * N, hvL (p_heap p) L x.1 x.2) <$> belowp n ts (S (N.to_nat (NumRows n)))) [] /\ (differ H n ts (hvL (p_heap p) L) g \/ (agree p T L g /\ ths = g 0%nat <$> ts)).

Lemma grown_self ts : grown ts M0.
Proof. split; [done|]. intros i _ Hi. by left. Qed.
Lemma unchanged_self ts prf ths : (valid_targets n ts -> length ths = length ts -> ~ spent n ts L0 g prf) -> unchanged ts prf ths p0.
Proof.
  intros Hno. split; [done|]. split; [done|]. exists M0. split; [apply grown_self|]. split; [done|]. split; [done|]. intros i _. split; [by left|].
  intros [?|(_ & H1 & H2 & H3 & _)]; [done|]. by destruct (Hno H1 H2).
Qed.
Lemma final_kept ts prf ths M : valid_targets n ts -> length ths = length ts -> spent n ts L0 g prf -> final ts L0 M0 g ths M ->
  forall i, is_Some (L0 0%nat (hp T 0 i)) -> (M i = true <-> M0 i = true \/ kept ts prf ths i).
Proof.
  intros Hts Hlen Hsp (dl & rest & E & HM & Hdl & Hst) i Hs. rewrite HM, orb_true_iff, bool_decide_eq_true. split; (intros [?|Hi]; [by left|right]).
  - split; [done|]. split; [done|]. split; [done|]. split; [done|]. apply elem_of_list_lookup_1 in Hi as [x Hx]. exists x. split; [rewrite E; by apply lookup_app_l_Some|].
    intros y t th Hy Ht. apply Hdl. rewrite E, lookup_app_l in Ht; [done|]. apply lookup_lt_Some in Hx. lia.
  - destruct Hi as (_ & _ & _ & _ & x & Hx & Hall). destruct (decide (x < length dl)%nat) as [Hlt|Hge].
    + rewrite E, lookup_app_l in Hx by done. by eapply elem_of_list_lookup_2.
    + exfalso. destruct rest as [|t rest].
      * apply lookup_lt_Some in Hx. rewrite E, app_nil_r in Hx. lia.
      * assert (Et : ts !! length dl = Some t) by (rewrite E, lookup_app_r, Nat.sub_diag by done; done).
        destruct (lookup_lt_is_Some_2 ths (length dl)) as [th Hth]; [rewrite Hlen; by eapply lookup_lt_Some|].
        destruct (Hst th Hth) as [H1 H2]. apply H2. apply (Hall (length dl) t th); [lia|done..].
Qed.

Section Proof.
Context (ts : list N) (Hts : valid_targets n ts) (prf ths : list hash) (Hlen : length ths = length ts).
Context (cs : list (nat * N)) (L : lmap) (k : nat) (ri : list N) (p1 : pollard) (t1 : list wnode) (rec : list (N * chop)).
Context (HT : TI n ts L0 k ri t1 cs L) (HH : HI n ts p0 L0 M0 g k ri p1 L) (HRI : RI L0 rec cs L).

Lemma cs_in r j : (r, j) ∈ cs -> inT T r j.
Proof.
  intros Hj. destruct (ti_cs _ _ _ _ _ _ _ _ HT r j Hj) as [Ht|[Hc _]]; [by apply inT_root|].
  apply inT_kid, trees_under. apply cmpb_iff in Hc. apply Hc.
Qed.
Lemma cs_some r j : (r, j) ∈ cs -> is_Some (L r (hp T r j)).
Proof.
  intros Hj. destruct (ti_cs _ _ _ _ _ _ _ _ HT r j Hj) as [Ht|[Hc Hp]].
  - rewrite hp_root by done. by apply (rp_root _ _ _ _ (hi_rep _ _ _ _ _ _ _ _ _ _ HH)).
  - apply (hi_new _ _ _ _ _ _ _ _ _ _ HH); by rewrite hp_half.
Qed.
Lemma fail_ok p t M : (forall i, is_Some (L0 0%nat (hp T 0 i)) -> (M i = true <-> M0 i = true \/ kept ts prf ths i)) -> p_n p = n -> p_posmap p = p_posmap p0 -> rep p T L M -> (forall i, M0 i = true -> M i = true) -> (forall i, M i = true -> M0 i = true \/ i ∈ ts) -> agree p T L0 g -> length t = length cs ->
  (forall x r i, cs !! x = Some (r, i) -> exists w, t !! x = Some w /\ w_node w = L r i /\ w_sib w = L r (hp T r i)) ->
  exists h, foldM (recover t) (p_heap p) rec = Ok h /\ unchanged ts prf ths (p_set_roots (p_set_heap p h) (roots_of_tab t (length (p_roots p0)))).
Proof.
  intros Hex E1 E2 HR HM HM' Ho El Hw.
  destruct (undo_ok n p0 L0 M0 g HR0 cs L p t M rec) as (h & E & H1 & H2); try done.
  - apply cs_in.
  - apply cs_some.
  - apply HT.
  - apply HH.
  - exists h. split; [done|]. split; [done|]. split; [done|]. eexists. split; [|split; [exact H1|split; [exact H2|]]].
    2: { cbn beta. intros i Hi. destruct (L0 0%nat (hp T 0 i)) as [l|] eqn:E0; [by apply Hex; rewrite E0|]. split; [done|]. intros [HM0|(Hs & _)].
      - pose proof (rp_leaf _ _ _ _ HR0 i Hi) as Hl. rewrite HM0, E0 in Hl. done.
      - rewrite E0 in Hs. by destruct Hs. }
    split; cbn beta; [|intros i Hi Hx; destruct (L0 0%nat (hp T 0 i)); [by apply HM'|done]]. intros i Hi HM0. pose proof (rp_leaf _ _ _ _ HR0 i Hi) as Hl. rewrite HM0 in Hl.
    destruct (L0 0%nat (hp T 0 i)) as [l|] eqn:E0; [by apply HM|done].
Qed.
Lemma create_fail_ok : ~ spent n ts L0 g prf -> exists h, foldM (recover t1) (p_heap p1) rec = Ok h /\ unchanged ts prf ths (p_set_roots (p_set_heap p1 h) (roots_of_tab t1 (length (p_roots p0)))).
Proof.
  intros Hns. apply (fail_ok p1 t1 M0); try apply HH; [|done|by left|symmetry; apply HT|].
  { intros i _. split; [by left|]. intros [?|(_ & _ & _ & ? & _)]; done. }
  intros x r i Hx. destruct (ti_w _ _ _ _ _ _ _ _ HT x r i Hx) as (w & Ew & Hs). exists w. split; [done|]. split; apply Hs.
Qed.
Context (Hk : k = O) (Hri : ri = []).
Lemma pend0 r i : ~ pend k ri r i.
Proof. rewrite Hk, Hri. intros [?|[_ ?%elem_of_nil]]; [lia|done]. Qed.
Lemma walk_cs r j : (r, j) ∈ cs -> (N.of_nat r, j) ∈ T \/ cmpb n ts (S r) (j / 2) = true.
Proof. intros Hj. destruct (ti_cs _ _ _ _ _ _ _ _ HT r j Hj) as [?|[? _]]; auto. Qed.
Lemma walk_new r i : cmpb n ts (S r) (i / 2) = true -> is_Some (L r i).
Proof. intros Hc. apply (hi_new _ _ _ _ _ _ _ _ _ _ HH); [done|apply pend0]. Qed.
Lemma walk_init : (hon n ts L0 g prf -> forall r i l, needed n ts (N.of_nat r) i -> L r i = Some l -> hv (p_heap p1) l = g r i) ->
  takes (sto L0 g <$> belowp n ts (S (N.to_nat (NumRows n)))) (rev prf) ((λ x : nat * N, hvL (p_heap p1) L x.1 x.2) <$> belowp n ts (S (N.to_nat (NumRows n)))) [] ->
  VI H n ts p0 L0 M0 g prf ths cs L 0 (vrow n ts 0) p1 t1 ths M0.
Proof.
  intros Hneed Hgp. pose proof walk_cs as Hcs'. pose proof walk_new as Hnew. pose proof (hi_sub _ _ _ _ _ _ _ _ _ _ HH) as Hsub.
  assert (HW1 : WI n ts p0 L0 M0 g cs L p1 t1 M0).
  { split; try apply HH; [done|by left|symmetry; apply HT|]. intros x r i Hx. destruct (ti_w _ _ _ _ _ _ _ _ HT x r i Hx) as (w & Ew & [S1 S2 S3 S4]).
    exists w. split; [done|]. split; try done. intros Ha. destruct S4 as (A1 & A2 & A3 & A4 & A5).
    { destruct Ha as [?|?]; [by left|]. right. split; [rewrite Hk; lia|done]. }
    split_and!; try done. by apply A5, pend0. }
  assert (Hsome : forall r i, needed n ts (N.of_nat r) i -> is_Some (L r i)).
  { intros r i Hnd. apply Hnew, cmpb_iff. assert (Hi : i ∈ srow n ts r) by (apply srow_elem; by right). unfold srow in Hi. apply elem_of_app in Hi as [Hi|Hi].
    - by apply crow_elem, kids_elem.
    - exfalso. apply elem_of_list_filter in Hi as [_ Hi%crow_elem]. by destruct Hnd as (_ & _ & ?). }
  split.
  - done.
  - intros x r d w Hx Ew Hc Hv. exfalso. destruct (ti_w _ _ _ _ _ _ _ _ HT x r d Hx) as (w' & Ew' & Hs). rewrite Ew in Ew'. injection Ew' as <-.
    destruct (ws_act _ _ _ _ _ _ _ _ _ _ Hs) as (_ & _ & _ & A4 & _); [|congruence]. right. split; [rewrite Hk; lia|done].
  - intros r d Hc Hp. exfalso. apply Hp. left. lia.
  - exists []. split; [cbn [vrow app]; by rewrite srow_comp|]. split; [done|]. intros i. rewrite bool_decide_false by (by intros ?%elem_of_nil); by rewrite orb_false_r.
  - intros Hh r i Hnd. destruct (Hsome r i Hnd) as [l El]. rewrite (hvL_some _ _ _ _ _ El). by apply (Hneed Hh).
  - exact Hgp.
Qed.
Lemma walk_ok xs : ids cs 0 xs (srow n ts 0) ->
  (hon n ts L0 g prf -> forall r i l, needed n ts (N.of_nat r) i -> L r i = Some l -> hv (p_heap p1) l = g r i) ->
  takes (sto L0 g <$> belowp n ts (S (N.to_nat (NumRows n)))) (rev prf) ((λ x : nat * N, hvL (p_heap p1) L x.1 x.2) <$> belowp n ts (S (N.to_nat (NumRows n)))) [] ->
  wp False (verify_rows H 66 p1 t1 ths xs) (λ '(p2, t2, ok), (hon n ts L0 g prf -> ths = g 0%nat <$> ts -> ok = true) /\
    (ok = false -> exists h, foldM (recover t2) (p_heap p2) rec = Ok h /\ unchanged ts prf ths (p_set_roots (p_set_heap p2 h) (roots_of_tab t2 (length (p_roots p0))))) /\
    (ok = true -> extended ts prf ths (p_set_roots (p_set_posmap p2 (pm_add (p_posmap p2) (zip ths ts))) (roots_of_tab t2 (length (p_roots p0)))))).
Proof.
  intros Hids Hneed Hgp.
  pose proof walk_cs as Hcs'. pose proof walk_new as Hnew. pose proof (hi_sub _ _ _ _ _ _ _ _ _ _ HH) as Hsub. pose proof (walk_init Hneed Hgp) as HV1.
  eapply wp_mono; [apply (verify_rows_ok H n Hn ts Hts p0 L0 M0 g prf ths HR0 Hg cs L (ti_nodup _ _ _ _ _ _ _ _ HT) Hcs' Hsub Hnew 66 0 p1 t1 ths M0 xs HV1 Hids); lia|].
  intros [[p2 t2] ok] (Hh & (M2 & HW2 & Hfin) & Hok). split; [intros ? ?; by apply Hh|]. split.
  - intros _. apply (fail_ok p2 t2 M2); try apply HW2.
    { apply final_kept; try done. by eexists. }
    intros x r i Hx. destruct (wi_w _ _ _ _ _ _ _ _ _ _ _ HW2 x r i Hx) as (w & Ew & Hs).
    exists w. split; [done|]. split; apply Hs.
  - intros Eok. destruct (Hok Eok) as (k' & M' & HV & Hck). clear M2 HW2 Hfin. pose proof (vi_w _ _ _ _ _ _ _ _ _ _ _ _ _ _ _ _ _ HV) as HW.
    destruct (VI_final H n Hn ts Hts p0 L0 M0 g prf ths Hg cs L Hcs' Hsub Hnew k' p2 t2 M' HV Hck) as (F1 & F2 & F3).
    assert (Hwt : forall x r i, cs !! x = Some (r, i) -> exists w, t2 !! x = Some w /\ w_node w = L r i /\ w_sib w = L r (hp T r i)).
    { intros x r i Hx. destruct (wi_w _ _ _ _ _ _ _ _ _ _ _ HW x r i Hx) as (w & Ew & Hs). exists w. split; [done|]. split; apply Hs. }
    assert (HRt : pr_node <$> roots_of_tab t2 (length (p_roots p0)) = (λ t : N * N, L (N.to_nat t.1) t.2) <$> T).
    { apply (roots_tab n p0 L0 M0 HR0 cs L t2); try done. apply HT. }
    assert (HRep : rep (p_set_roots (p_set_posmap p2 (pm_add (p_posmap p2) (zip ths ts))) (roots_of_tab t2 (length (p_roots p0)))) T L M').
    { apply rep_roots; [apply rep_posmap, HW|]. rewrite HRt. cbn [p_set_posmap p_roots]. symmetry. apply (rp_roots _ _ _ _ (wi_rep _ _ _ _ _ _ _ _ _ _ _ HW)). }
    split; [apply HW|]. split.
    { cbn [p_set_roots p_set_posmap p_posmap]. by rewrite (wi_pm _ _ _ _ _ _ _ _ _ _ _ HW). }
    split; [done|]. split; [done|]. exists L, M'. split; [done|]. split; [done|]. split; [split; [split; intros i _; apply HW|]|split].
    { intros Hti r x Hx Hl. destruct (hi_diff _ _ _ _ _ _ _ _ _ _ HH r x) as [E0|[Hc _]].
      - rewrite E0 in Hl. destruct (Hti r x Hx Hl) as (i & Hi & Ei). exists i. split; [by apply HW|done].
      - apply cmpb_iff in Hc as [_ (t & Ht & Et)]. exists t. split; [by apply F3|done]. }
    { intros r i l Hi El. apply (wi_old _ _ _ _ _ _ _ _ _ _ _ HW r i l Hi El). }
    split.
    { split; [|done]. intros r i Hi. apply srow_elem in Hi. unfold srow in Hi. apply elem_of_app in Hi as [Hi|Hi].
      - apply Hnew. apply cmpb_iff. by apply crow_elem, kids_elem.
      - apply (rp_root _ _ _ _ HRep). apply elem_of_list_filter in Hi. by apply Hi. }
    split.
    { intros Hhn Hth r i l Hi El. change (hv (p_heap p2) l = g r i). destruct (hi_diff _ _ _ _ _ _ _ _ _ _ HH r i) as [E0|[Hc _]].
      - apply (wi_old _ _ _ _ _ _ _ _ _ _ _ HW); [done|congruence].
      - rewrite <- (hvL_some _ _ _ _ _ El).
        assert (Hs : i ∈ srow n ts r) by (unfold srow; apply elem_of_app; left; apply kids_elem; by apply crow_elem, cmpb_iff).
        apply (hon_true H n Hn ts Hts p0 L0 M0 g prf ths Hg cs L Hcs' Hsub Hnew k' [] p2 t2 [] M' HV (conj Hhn Hth)).
        apply srow_elem in Hs as [Hs|Hs]; [left|by right]. split; [by apply cmpb_iff|]. intros [Hlt|[_ ?%elem_of_nil]]; [|done].
        apply crow_elem in Hs. rewrite (crow_nil n ts k') in Hs by (done || lia). by apply elem_of_nil in Hs. }
    split; [exact (vi_g _ _ _ _ _ _ _ _ _ _ _ _ _ _ _ _ _ HV)|].
    destruct (sound_rows H n Hn ts (hvL (p_heap p2) L) g) as [|Hall]; [done|..|by left|].
    + intros r d Hc. apply Hg. apply cmpb_iff in Hc. apply Hc.
    + intros r i Hi. destruct (rp_root _ _ _ _ HR0 r i Hi) as [l El]. rewrite (hvL_some _ _ _ _ _ (Hsub _ _ _ El)).
      apply (wi_old _ _ _ _ _ _ _ _ _ _ _ HW); [by apply inT_root|done].
    + right. split.
      * intros r i l Hi El. change (hv (p_heap p2) l = g r i). destruct (hi_diff _ _ _ _ _ _ _ _ _ _ HH r i) as [E0|[Hc _]].
        -- apply (wi_old _ _ _ _ _ _ _ _ _ _ _ HW); [done|congruence].
        -- rewrite <- (hvL_some _ _ _ _ _ El). apply Hall. unfold srow. apply elem_of_app. left. apply kids_elem. by apply crow_elem, cmpb_iff.
      * rewrite F2. apply list_fmap_ext. intros x i Hx%elem_of_list_lookup_2. apply Hall, srow_elem. left. split.
        -- destruct Hts as [_ Hf]. rewrite Forall_forall in Hf. apply Hf in Hx. unfold node. change (N.of_nat 0) with 0. change (2 ^ 0) with 1. lia.
        -- exists i. split; [done|]. change (2 ^ N.of_nat 0) with 1. apply N.div_1_r.
Qed.
End Proof.

Lemma Verify_ok bp ths : n <= int_max -> m_sorted_targets bp = sortN (m_targets bp) ->
  wp (valid_targets n (m_sorted_targets bp) /\ length ths = length (m_sorted_targets bp) /\ Z n (m_sorted_targets bp) L0 g (m_proof bp)) (P_Verify H p0 bp ths) (λ '(b, p), 
    (b = false -> unchanged (m_sorted_targets bp) (m_proof bp) ths p) /\ (b = true -> extended (m_sorted_targets bp) (m_proof bp) ths p) /\
    (valid_targets n (m_sorted_targets bp) -> hon n (m_sorted_targets bp) L0 g (m_proof bp) -> ths = g 0%nat <$> m_sorted_targets bp -> b = true) /\
    (valid_targets n (m_sorted_targets bp) -> length ths = length (m_sorted_targets bp) -> ~ halt n (m_sorted_targets bp) L0 g (m_proof bp) (Some zero_hash))).
Proof.
  intros Hmax Es. remember (m_sorted_targets bp) as ts eqn:Ets. unfold P_Verify.
  assert (Esz : size ts = size (m_targets bp)) by (rewrite Es; unfold size; f_equal; apply Permutation_length, sortN_perm).
  destruct (N.eqb_spec (size ths) (size (m_targets bp))) as [Elen|Elen]; cbn [negb].
  2: { cbn [wp]. split; [intros _; apply unchanged_self; intros _ El; exfalso; apply Elen; rewrite <- Esz; unfold size; by rewrite El|]. split; [done|].
    split; [intros _ _ ->; exfalso; apply Elen; rewrite <- Esz; unfold size; by rewrite fmap_length|]. intros _ El. exfalso. apply Elen. rewrite <- Esz. unfold size. by rewrite El. }
  assert (Hlen : length ths = length ts) by (rewrite <- Esz in Elen; unfold size in Elen; lia). rewrite Hpn.
  unfold bp_CheckSanity. rewrite <- Ets. destruct (CheckTargetsSanity_iff n ts) as (b & -> & Hb). cbn [bind]. destruct b; cbn [negb bind].
  2: { cbn [wp]. split; [intros _; apply unchanged_self; intros Hv _; by apply Hb in Hv|]. split; [done|]. split; [intros Hv _ _; by apply Hb|]. intros Hv _ _. apply Hb in Hv. done. }
  destruct (proj1 Hb eq_refl) as [Hts1 Hts2]. assert (Hts : valid_targets n ts) by done.
  destruct (ProofPositions_ok n Hn ts Hts) as (P & C & -> & HP & _). cbn [bind fst].
  destruct (N.leb_spec (size (m_proof bp)) (size P)) as [Hle|Hle]; cbn [negb].
  2: { cbn [wp]. split; [intros _; apply unchanged_self; intros _ _ Hsp; pose proof (spent_length n Hn ts L0 g _ P HP Hsp); lia|]. split; [done|].
    split; [intros _ Hh _; pose proof (hon_length n Hn ts L0 g _ P HP Hh); lia|]. intros _ _ Hh. pose proof (halt_length n Hn ts L0 g _ P _ HP Hh). lia. }
  destruct (decide (ts = [])) as [E0|E0].
  { assert (m_targets bp = []) as ->.
    { rewrite E0 in Esz. unfold size in Esz. cbn [length] in Esz. destruct (m_targets bp); [done|]. cbn [length] in Esz. lia. }
    assert (EP0 : P = []).
    { destruct P as [|x P']; [done|]. exfalso. destruct (proj1 (proj2 HP x) ltac:(left)) as (r & i & _ & _ & (_ & t & Ht & _) & _). rewrite E0 in Ht. by apply elem_of_nil in Ht. }
    assert (Eprf : m_proof bp = []).
    { rewrite EP0 in Hle. unfold size in Hle. cbn [length] in Hle. destruct (m_proof bp); [done|]. cbn [length] in Hle. lia. }
    assert (Ebp : belowp n ts (S (N.to_nat (NumRows n))) = []).
    { pose proof (needed_rev n Hn ts P HP) as El. rewrite EP0 in El. cbn [rev] in El. by destruct (belowp n ts _). }
    cbn [wp]. split; [done|]. split; [|split; [done|intros _ _ Hh; pose proof (halt_length n Hn ts L0 g _ P _ HP Hh) as Hx; rewrite EP0 in Hx; unfold size in Hx; cbn [length] in Hx; lia]].
    intros _. assert (ths = []) as -> by (rewrite E0 in Hlen; by destruct ths).
    split; [done|]. split; [done|]. split; [done|]. split; [done|]. exists L0, M0. split; [done|]. split; [done|]. split; [split; [apply grown_self|done]|]. split; [done|].
    rewrite Ebp, Eprf. rewrite E0. split; [|split; [intros _ _; done|split; [constructor|right; done]]]. split; [|by intros t ?%elem_of_nil].
    intros r i [[_ (t & ?%elem_of_nil & _)]|[[_ (t & ?%elem_of_nil & _)] _]]; done. }
  destruct (m_targets bp) as [|t0 tl] eqn:Emt.
  { exfalso. apply E0. unfold size in Esz. cbn [length] in Esz. destruct ts; [done|]. cbn [length] in Esz. lia. }
  clear E0. apply wp_bind. eapply wp_mono; [eapply wp_weak; [|apply (CreateProofTree_ok n Hn ts p0 L0 M0 g (m_proof bp)); done]; intros HZ; split; [done|]; split; [done|exact HZ]|].
  intros [[[[p1 t1] rec] xs] ok] (cs & L & k & ri & HT & HH & HRI & Hh & Hnh & Hok). cbn beta iota. destruct ok.
  - destruct (Hok eq_refl) as (Hk & Hri & Hids & Hneed & Hgp).
    pose proof (walk_ok ts Hts (m_proof bp) ths Hlen cs L k ri p1 t1 rec HT HH HRI Hk Hri xs Hids Hneed Hgp) as Hwalk.
    apply wp_bind. destruct (verify_rows H 66 p1 t1 ths xs) as [[[p2 t2] ok]| | | |]; cbn [wp] in Hwalk |- *; try done.
    destruct Hwalk as (W1 & W2 & W3). destruct ok; cbn [negb].
    + rewrite int_loop_ok.
      2: { rewrite Elen, <- Esz. transitivity n; [|done]. apply (length_by_relation eq); [by apply sorted_lt_NoDup| |congruence]. intros t Ht. exists t. split; [|done]. by apply (proj1 (Forall_forall _ _) Hts2). }
      cbn [bind]. rewrite (posmap_loop ths ts) by done. cbn [bind wp]. split; [done|]. split; [intros _; by apply W3|]. split; [done|]. intros _ _. exact Hnh.
    + destruct (W2 eq_refl) as (h & -> & Hu). cbn [bind wp]. split; [intros _; exact Hu|]. split; [done|]. split; [intros _ Hh' Hth; by specialize (W1 Hh' Hth)|]. intros _ _. exact Hnh.
  - cbn [bind negb]. destruct (create_fail_ok ts (m_proof bp) ths cs L k ri p1 t1 rec HT HH HRI) as (h & -> & Hu); [intros Hsp; by specialize (Hh Hsp)|]. cbn [bind wp].
    split; [intros _; exact Hu|]. split; [done|]. split; [intros _ Hh' _; by specialize (Hh (hon_spent _ _ _ _ _ Hh'))|]. intros _ _. exact Hnh.
Qed.
End Main.
