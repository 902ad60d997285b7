(** * PlaceExact: exactly which positions the roots carry after a modification (proofs) *)
From stdpp Require Import sorting.
From Verif Require Import Base StateModel CodecModel ForestModel PollardModel PosSpec PosFacts PathFacts MerkleSpec TargetFacts ForestFacts RowFacts TransformFacts SpecFacts RemoveFacts
  ForestInv AddFacts ForestSpec HistFacts PosmapFacts PollardRep PollardInit PollardAdd PollardRemove PollardSpec PollardHist ProofSpec ProveFacts PollardProps ForestExamples PollardRefute PollardExamples
  PlaceSpec PlaceFacts PlacePollard PlaceProps.
From Coq Require Import ZifyBool ZifyNat ZifyN.
Ltac Zify.zify_post_hook ::= idtac.

(** ** Trees that stay *)
Lemma rr_prefix t K n : exists l, rr 0 K n = rr t K n ++ l.
Proof.
  induction t as [|t [l IH]] using N.peano_ind; [exists []; by rewrite app_nil_r|].
  rewrite IH, (rr_S t K n), <- N.add_1_r, <- app_assoc. by eexists.
Qed.
Lemma root_rows_NoDup k n : NoDup (root_rows k n).
Proof.
  induction k as [|k IH]; cbn [root_rows].
  - rewrite app_nil_r. destruct (N.testbit n _); [apply NoDup_singleton|apply NoDup_nil_2].
  - destruct (N.testbit n _); [|done]. cbn [app]. constructor; [|done]. intros [Hle _]%root_rows_elem. lia.
Qed.
Lemma trees_rr n K : NumRows n <= N.of_nat K -> trees n = (λ r, (r, 2 * (n / 2 ^ (r + 1)))) <$> rr 0 K n.
Proof. intros HK. unfold trees. rewrite rr_0, (root_rows_trim n K) by lia. done. Qed.
Lemma trees_lookup n k r i : trees n !! k = Some (r, i) -> N.testbit n r = true /\ i = 2 * (n / 2 ^ (r + 1)) /\ k = length (rr (r + 1) (N.to_nat (NumRows n)) n).
Proof.
  intros E. remember (N.to_nat (NumRows n)) as K eqn:EK. rewrite (trees_rr n K) in E by lia. rewrite list_lookup_fmap in E. destruct (rr 0 K n !! k) as [r'|] eqn:Er; [|done].
  cbn [fmap option_fmap option_map] in E. injection E as -> <-. pose proof Er as Hin%elem_of_list_lookup_2. rewrite rr_0 in Hin. apply root_rows_elem in Hin as [Hle Hb].
  split; [done|]. split; [done|]. destruct (rr_prefix r K n) as [l El]. rewrite (rr_S r K n), Hb in El. destruct (N.leb_spec r (N.of_nat K)); [|lia]. cbn [andb] in El.
  assert (Hnd : NoDup (rr 0 K n)) by (rewrite rr_0; apply root_rows_NoDup).
  rewrite El in Er, Hnd. apply (NoDup_lookup _ _ _ _ Hnd Er). rewrite <- app_assoc. rewrite lookup_app_r by lia. by rewrite Nat.sub_diag.
Qed.
Lemma trees_at n r : N.testbit n r = true -> trees n !! length (rr (r + 1) (N.to_nat (NumRows n)) n) = Some (r, 2 * (n / 2 ^ (r + 1))).
Proof.
  intros Hb. remember (N.to_nat (NumRows n)) as K eqn:EK. rewrite (trees_rr n K) by lia. pose proof (testbit_le_rows n r Hb) as Hle.
  destruct (rr_prefix r K n) as [l El]. rewrite (rr_S r K n), Hb in El. destruct (N.leb_spec r (N.of_nat K)); [|lia]. cbn [andb] in El.
  rewrite El, list_lookup_fmap, <- app_assoc, lookup_app_r by lia. by rewrite Nat.sub_diag.
Qed.
Lemma trees_between n m n' k r i : NumRows n = NumRows n' -> n <= m <= n' -> trees n !! k = Some (r, i) -> trees n' !! k = Some (r, i) -> trees m !! k = Some (r, i).
Proof.
  intros ER [H1 H2] E E'. apply trees_lookup in E as (Hb & Hi & Hk). apply trees_lookup in E' as (Hb' & Hi' & _).
  assert (Em : NumRows m = NumRows n) by (pose proof (NumRows_mono _ _ H1); pose proof (NumRows_mono _ _ H2); lia).
  assert (Hd : forall x, r + 1 <= x -> m / 2 ^ x = n / 2 ^ x).
  { intros x Hx. assert (Hs : n / 2 ^ (r + 1) = m / 2 ^ (r + 1)).
    { pose proof (N.div_le_mono n m (2 ^ (r + 1)) ltac:(pose proof (pow_pos (r + 1)); lia) H1). pose proof (N.div_le_mono m n' (2 ^ (r + 1)) ltac:(pose proof (pow_pos (r + 1)); lia) H2). lia. }
    replace x with (r + 1 + (x - (r + 1))) by lia. rewrite N.pow_add_r, <- !N.div_div by (pose proof (pow_pos (r + 1)); pose proof (pow_pos (x - (r + 1))); lia). by rewrite Hs. }
  assert (Hbm : N.testbit m r = true).
  { rewrite testbit_mod in *. pose proof (N.div_le_mono n m (2 ^ r) ltac:(pose proof (pow_pos r); lia) H1). pose proof (N.div_le_mono m n' (2 ^ r) ltac:(pose proof (pow_pos r); lia) H2).
    specialize (Hd (r + 1) ltac:(lia)). rewrite !div_pow_S in *. dlia. }
  pose proof (trees_at m r Hbm) as Hm. rewrite Em, (rr_ext _ _ m n), <- Hk, Hd in Hm by (done || lia || (intros x Hx; by rewrite !testbit_mod, (Hd x))). by rewrite Hm, Hi.
Qed.

(** ** One leaf *)
Lemma merged_take n K row ps np ps' : merged n row ps np ps' -> forall q, n <= 2 ^ 62 -> NumRows (n + 1) <= N.of_nat K -> n + 1 = q * 2 ^ row -> np = npos n row ->
  length ps = length (rr row K n) ->
  exists t q', n + 1 = q' * 2 ^ t /\ N.testbit n t = false /\ (length (rr t K n) <= length ps)%nat /\ ps' = take (length (rr t K n)) ps ++ [npos n t].
Proof.
  induction 1 as [row ps np Hb|row ps x np pp ps' Hb Hp Hm IH]; intros q Hn HK Hq -> E.
  - exists row, q. split; [done|]. split; [done|]. split; [lia|]. by rewrite take_ge by lia.
  - destruct (ones_step n row q Hq) as (_ & Ht & _). destruct (Ht Hb) as [q' Eq]. assert (Hq' : n + 1 = q' * 2 ^ (row + 1)) by (rewrite pow_S; lia).
    destruct (npos_ok n row q' Hn Hq') as (Hp' & _). rewrite Hp in Hp'. apply Ok_inv in Hp' as ->.
    pose proof (ones_node n (n + 1) row q Hq ltac:(lia)) as Hx%node_row.
    rewrite rr_S, Hb in E. destruct (N.leb_spec row (N.of_nat K)); [|lia]. cbn [andb] in E. rewrite !app_length in E. cbn [length] in E.
    destruct (IH q' Hn HK Hq' eq_refl ltac:(lia)) as (t & q2 & H1 & H2 & H3 & ->). exists t, q2. split; [done|]. split; [done|]. rewrite app_length. split; [lia|].
    by rewrite take_app_le by lia.
Qed.
Lemma trees_add n t q : n + 1 = q * 2 ^ t -> N.testbit n t = false ->
  trees (n + 1) = take (length (rr t (N.to_nat (NumRows (n + 1))) n)) (trees n) ++ [(t, n / 2 ^ t)].
Proof.
  intros Hq Hb. destruct (carry (λ a _, a) _ _ _ Hq Hb) as (s & Es & Hd & Hx). remember (N.to_nat (NumRows (n + 1))) as K eqn:EK.
  pose proof (NumRows_mono n (n + 1) ltac:(lia)) as Hmono. rewrite (trees_rr n K), (trees_rr (n + 1) K) by lia.
  destruct (rr_prefix t K n) as [l El]. rewrite El, fmap_app, take_app_alt by (by rewrite fmap_length).
  rewrite (rr_low t q K (n + 1) Hq), (rr_S t K (n + 1)), (rr_S t K n), Hb. rewrite app_nil_r.
  assert (HtK : t <= N.of_nat K). { pose proof (ones_node n (n + 1) t q Hq ltac:(lia)) as Ht%node_row. lia. }
  assert (Hbt : N.testbit (n + 1) t = true). { rewrite testbit_mod, Hq, N.div_mul by (pose proof (pow_pos t); lia). subst q. clear. dlia. }
  rewrite Hbt. destruct (N.leb_spec t (N.of_nat K)); [|lia]. cbn [andb].
  assert (Hext : rr (t + 1) K (n + 1) = rr (t + 1) K n). { apply rr_ext. intros x Hx'. by rewrite !testbit_mod, Hx by lia. }
  rewrite Hext, !fmap_app. f_equal.
  - apply list_fmap_ext. intros k x Hk%elem_of_list_lookup_2. unfold rr in Hk. apply elem_of_list_filter in Hk as [Hle _]. by rewrite Hx by lia.
  - cbn [fmap list_fmap]. do 2 f_equal. rewrite div_pow_S, Hq, N.div_mul by (pose proof (pow_pos t); lia). subst q. rewrite Hd. clear. dlia.
Qed.

(** The positions [ps] of the trees of [n] leaves and [ps'] after additions. *)
Definition moved (n n' : N) (ps ps' : list N) : Prop := forall k r i, trees n' !! k = Some (r, i) ->
  (NumRows n = NumRows n' -> trees n !! k = Some (r, i) -> ps' !! k = ps !! k) /\
  (NumRows n <> NumRows n' \/ trees n !! k <> Some (r, i) -> ps' !! k = Some (enc (NumRows n') r i)).
Lemma place_lookup R n k r i : trees n !! k = Some (r, i) -> place R n !! k = Some (enc R r i).
Proof. intros E. unfold place. by rewrite list_lookup_fmap, E. Qed.
Lemma moved_step n ps fin : n < 2 ^ 62 -> n <> 1 -> length ps = length (trees n) -> length fin = length (trees (n + 1)) -> stepped n ps fin -> moved n (n + 1) ps fin.
Proof.
  intros Hn H1 Hl Hl' Hs k r i Ek. destruct (N.eq_dec (NumRows n) (NumRows (n + 1))) as [ER|ER].
  - destruct Hs as (ps' & Hm & [[_ ->]|[Hc _]]); [|by rewrite ER, N.eqb_refl, orb_true_r in Hc].
    assert (Hn0 : n = npos n 0). { unfold npos. destruct (N.eqb_spec n 1) as [->|]; [done|]. change (2 ^ 0) with 1. by rewrite N.div_1_r, enc_0. }
    pose proof (trees_rr n (N.to_nat (NumRows (n + 1))) ltac:(lia)) as Etr.
    destruct (merged_take n (N.to_nat (NumRows (n + 1))) 0 ps n ps' Hm (n + 1) ltac:(lia) ltac:(lia) ltac:(change (2 ^ 0) with 1; lia) Hn0) as (t & q & Hq & Hb & Hle & ->).
    { by rewrite Hl, Etr, fmap_length. }
    rewrite (trees_add n t q Hq Hb) in Ek. remember (length (rr t (N.to_nat (NumRows (n + 1))) n)) as j eqn:Ej. clear Ej.
    destruct (Nat.lt_ge_cases k j) as [Hk|Hk].
    + rewrite lookup_app_l, lookup_take in Ek by (rewrite ?take_length; lia). split; [|by intros [?|?]]. intros _ _. rewrite lookup_app_l, lookup_take by (rewrite ?take_length; lia). done.
    + rewrite lookup_app_r, take_length in Ek by (rewrite ?take_length; lia). rewrite Nat.min_l in Ek by lia.
      destruct (k - j)%nat as [|d] eqn:Ed; [|done]. cbn [lookup list_lookup] in Ek. injection Ek as <- <-. split.
      * intros _ (Hbt & _)%trees_lookup. congruence.
      * intros _. rewrite lookup_app_r, take_length by (rewrite ?take_length; lia). rewrite Nat.min_l, Ed by lia. cbn [lookup list_lookup]. unfold npos. rewrite <- ER. by destruct (N.eqb_spec n 1).
  - split; [done|]. intros _. destruct (N.eq_dec (NumRows n) 0) as [H0|H0].
    { destruct (grow n ER) as [En _]. rewrite H0 in En. by change (2 ^ 0) with 1 in En. }
    rewrite (stepped_grow n ps fin Hn H0 ER Hl' Hs). by apply place_lookup.
Qed.

(** ** Several leaves *)
Inductive steps : N -> list N -> N -> list N -> Prop :=
| st_refl n ps : length ps = length (trees n) -> steps n ps n ps
| st_step n ps ps1 n' ps' : n < 2 ^ 62 -> length ps = length (trees n) -> length ps1 = length (trees (n + 1)) -> stepped n ps ps1 -> steps (n + 1) ps1 n' ps' -> steps n ps n' ps'.
Lemma steps_le n ps n' ps' : steps n ps n' ps' -> n <= n' /\ length ps = length (trees n) /\ length ps' = length (trees n').
Proof. induction 1 as [|n ps ps1 n' ps' ? ? ? ? ? IH]; [done|]. destruct IH as (? & ? & ?). split; [lia|done]. Qed.
Lemma steps_refl n ps n' ps' : steps n ps n' ps' -> n = n' -> ps = ps'.
Proof. intros Hs E. destruct Hs as [|n ps ps1 n' ps' ? ? ? ? Hs]; [done|]. apply steps_le in Hs as [? _]. lia. Qed.
Lemma merged_inv n row ps np ps' : merged n row ps np ps' ->
  (N.testbit n row = false /\ ps' = ps ++ [np]) \/ (N.testbit n row = true /\ exists qs x pp, ps = qs ++ [x] /\ Parent n np = Ok pp /\ merged n (row + 1) qs pp ps').
Proof. destruct 1 as [|row ps x np pp ps' Hb Hp Hm]; [by left|right]. split; [done|]. by exists ps, x, pp. Qed.
Lemma steps_two n ps n' ps' : steps n ps n' ps' -> n < n' -> n' = 2 -> ps' = [1].
Proof.
  induction 1 as [|n ps ps1 n' ps' Hn Hl Hl1 Hs Hst IH]; intros Hlt E2; [lia|]. destruct (N.eq_dec n 1) as [->|H1]; [|apply IH; lia].
  change (1 + 1) with 2 in *. apply steps_refl in Hst as <-; [|done]. destruct Hs as (qs & Hm & [[_ ->]|[Hc _]]); [|by vm_compute in Hc].
  change (length (trees 1)) with 1%nat in Hl. destruct ps as [|x [|]]; [done| |done]. 
  apply merged_inv in Hm as [[Hb _]|(_ & ps0 & y & pp & E & Hp & Hm)]; [done|].
  apply (app_inj_2 [] ps0 [x] [y]) in E as [<- _]; [|done]. vm_compute in Hp. injection Hp as <-. by apply merged_inv in Hm as [[_ ->]|[Hb _]].
Qed.
Lemma steps_moved n ps n' ps' : steps n ps n' ps' -> n < n' -> n' <> 2 -> moved n n' ps ps'.
Proof.
  induction 1 as [|n ps ps1 n' ps' Hn Hl Hl1 Hs Hst IH]; intros Hlt H2; [lia|]. destruct (N.eq_dec (n + 1) n') as [<-|Hne].
  { apply steps_refl in Hst as <-; [|done]. apply moved_step; [done|lia|done..]. }
  specialize (IH ltac:(lia) H2). intros k r i Ek. destruct (IH k r i Ek) as [I1 I2]. destruct (N.eq_dec n 1) as [->|H1].
  - assert (Hh : NumRows 2 < NumRows n'). { apply N.lt_le_trans with (NumRows 3); [done|]. apply NumRows_mono. lia. }
    change (1 + 1) with 2 in *. change (NumRows 2) with 1 in *. split; [change (NumRows 1) with 0; lia|]. intros _. apply I2. left. lia.
  - destruct (N.eq_dec (NumRows (n + 1)) (NumRows n')) as [ER|ER].
    + destruct (decide (trees (n + 1) !! k = Some (r, i))) as [E1|E1].
      * rewrite I1 by done. destruct (moved_step n ps ps1 Hn H1 Hl Hl1 Hs k r i E1) as [S1 S2]. split; [intros E; apply S1; congruence|]. rewrite <- ER. exact S2.
      * split; [|by auto]. intros E Et. exfalso. apply E1. apply (trees_between n _ n'); [done|lia|done|done].
    + split; [|by auto]. intros E. exfalso. pose proof (NumRows_mono n (n + 1) ltac:(lia)). pose proof (NumRows_mono (n + 1) n' ltac:(lia)). lia.
Qed.

(** ** When all positions are right *)
Lemma enc_height R R' r i : 1 <= r -> enc R r i = enc R' r i -> R = R'.
Proof.
  intros Hr E. unfold enc in E. destruct (N.to_nat r) as [|k] eqn:Er; [lia|].
  destruct (N.lt_trichotomy R R') as [Hlt|[->|Hlt]]; [|done|]; apply (slots_mono _ _ k) in Hlt; lia.
Qed.
Lemma top_tree n : 2 <= n -> n < 2 ^ NumRows n -> exists r k, NumRows n = r + 1 /\ 1 <= r /\ k = length (rr (r + 1) (N.to_nat (NumRows n)) n) /\ trees n !! k = Some (r, 0).
Proof.
  intros H2 Hlt. assert (HR : 2 <= NumRows n).
  { destruct (N.lt_ge_cases (NumRows n) 2) as [Hs|]; [|done]. assert (NumRows n = 0 \/ NumRows n = 1) as [E|E] by lia; rewrite E in Hlt; [change (2 ^ 0) with 1 in Hlt|change (2 ^ 1) with 2 in Hlt]; lia. }
  exists (NumRows n - 1), (length (rr (NumRows n - 1 + 1) (N.to_nat (NumRows n)) n)). split; [lia|]. split; [lia|]. split; [done|].
  assert (Hge : 2 ^ (NumRows n - 1) < n) by (apply NumRows_gt; lia).
  assert (Hp : 2 ^ NumRows n = 2 * 2 ^ (NumRows n - 1)) by (rewrite <- pow_S; f_equal; lia).
  rewrite trees_at.
  - rewrite N.sub_add by lia. rewrite N.div_small by done. done.
  - rewrite testbit_mod. assert (n / 2 ^ (NumRows n - 1) = 1) as ->; [|done]. symmetry. apply (N.div_unique _ _ _ (n - 2 ^ (NumRows n - 1))); lia.
Qed.
Lemma right_iff n n1 n' ps1 ps' : steps n1 ps1 n' ps' -> n1 <= n -> n1 < n' \/ n1 < n -> (n1 < n -> ps1 = place (NumRows n) n1) -> (n1 = n -> good n ps1) ->
  ps' = place (NumRows n') n' <-> n' <> 2 /\ (NumRows n1 = NumRows n \/ n1 <= 1 \/ (n1 < n' /\ 2 ^ NumRows n1 <= n')).
Proof.
  intros Hst Hle Hne Hdel Hkeep. destruct (steps_le _ _ _ _ Hst) as (Hle' & Hl1 & Hl'). destruct (N.eq_dec n1 n') as [<-|Hlt].
  - apply steps_refl in Hst as <-; [|done]. destruct Hne as [?|Hn]; [lia|]. rewrite (Hdel Hn). split.
    + intros E. destruct (N.le_gt_cases n1 1) as [Hs|Hs]; [split; [lia|by right; left]|]. apply place_height in E; [|lia]. split; [|by left].
      intros ->. pose proof (NumRows_mono 3 n ltac:(lia)) as Hm. rewrite E in Hm. by vm_compute in Hm.
    + intros [_ [E|[E|[E _]]]]; [by rewrite E|by apply (place_small (λ a _, a))|lia].
  - assert (Hlt' : n1 < n') by lia. clear Hne Hlt. destruct (N.eq_dec n' 2) as [E2|H2].
    { rewrite (steps_two _ _ _ _ Hst Hlt' E2), E2. split; [intros E; by vm_compute in E|by intros [? _]]. }
    pose proof (steps_moved _ _ _ _ Hst Hlt' H2) as Hm. split.
    + intros E. split; [done|]. destruct (N.eq_dec (NumRows n1) (NumRows n)) as [|HR]; [by left|right]. destruct (N.le_gt_cases n1 1) as [|Hs]; [by left|right].
      split; [done|]. destruct (N.le_gt_cases (2 ^ NumRows n1) n') as [|Hgt]; [done|exfalso].
      assert (HR' : NumRows n1 = NumRows n') by (pose proof (NumRows_mono n1 n' ltac:(lia)); pose proof (proj2 (NumRows_le n' (NumRows n1)) ltac:(lia)); lia).
      assert (Hn : n1 < n). { destruct (N.eq_dec n1 n) as [->|]; [done|lia]. }
      destruct (top_tree n1 ltac:(lia) ltac:(lia)) as (r & k & Er & Hr & Hk & Et). rewrite HR' in Hgt. destruct (top_tree n' ltac:(lia) Hgt) as (r' & k' & Er' & Hr' & Hk' & Et').
      assert (r' = r) as -> by lia. assert (k' = k) as ->.
      { rewrite Hk, Hk', HR'. f_equal. apply rr_ext. intros x Hx. assert (Hp : 2 ^ NumRows n' <= 2 ^ x) by (apply N.pow_le_mono_r; lia). rewrite !testbit_mod, !N.div_small by lia. done. }
      destruct (Hm k r 0 Et') as [Hm1 _]. specialize (Hm1 HR' Et). rewrite E, (Hdel Hn), (place_lookup _ _ _ _ _ Et), (place_lookup _ _ _ _ _ Et') in Hm1. injection Hm1 as Hm1.
      apply enc_height in Hm1; [|done]. congruence.
    + intros [_ Hc]. apply list_eq_same_length with (n := length (trees n')); [unfold place; by rewrite fmap_length|done|].
      intros k x y _ Ex Ey. destruct (trees n' !! k) as [[r i]|] eqn:Et; [|unfold place in Ey; by rewrite list_lookup_fmap, Et in Ey].
      rewrite (place_lookup _ _ _ _ _ Et) in Ey. injection Ey as <-. destruct (Hm k r i Et) as [Hm1 Hm2].
      destruct (N.eq_dec (NumRows n1) (NumRows n')) as [ER|ER]; [|rewrite Hm2 in Ex by (by left); congruence].
      destruct (decide (trees n1 !! k = Some (r, i))) as [E1|E1]; [|rewrite Hm2 in Ex by (by right); congruence].
      rewrite Hm1 in Ex by done.
      assert (Hok : ps1 = place (NumRows n1) n1 -> x = enc (NumRows n') r i).
      { intros ->. rewrite (place_lookup _ _ _ _ _ E1), ER in Ex. congruence. }
      destruct (N.eq_dec n1 n) as [En|En].
      * destruct (Hkeep En) as [Hg|Hg]; [apply Hok; by rewrite En|]. exfalso. subst n1 n. pose proof (NumRows_mono 3 n' ltac:(lia)) as Hm3. rewrite <- ER in Hm3. by vm_compute in Hm3.
      * specialize (Hdel ltac:(lia)). destruct Hc as [Hc|[Hc|[_ Hc]]]; [apply Hok; by rewrite Hc|apply Hok; rewrite Hdel; by apply (place_small (λ a _, a))|].
        exfalso. assert (En' : n' = 2 ^ NumRows n1) by (rewrite ER in *; pose proof (NumRows_bound n'); lia).
        apply trees_lookup in E1 as (Hb & _). apply trees_lookup in Et as (Hb' & _). rewrite En', N.pow2_bits_eqb in Hb'. apply N.eqb_eq in Hb' as <-.
        rewrite testbit_mod, N.div_small in Hb by lia. done.
Qed.

Section Accumulators.
Context (H : hash -> hash -> hash).

(** ** The forest *)
Lemma core_len f ls next B : core H f ls next B -> length (F_root_positions f) = length (trees (f_n f)).
Proof. intros (Hf & _ & _ & Hr). apply (f_equal length) in Hr. unfold F_Roots, spec_roots in Hr. unfold F_root_positions. rewrite !fmap_length in *. by rewrite Hr, <- Hf. Qed.
Lemma add_leaves_steps hs : forall f ls next B f', core H f ls next B -> size ls + size hs <= next -> next <= 2 ^ 62 -> B + 65 * size hs < two64 -> foldM (F_add_leaf H) f hs = Ok f' ->
  steps (f_n f) (F_root_positions f) (f_n f') (F_root_positions f').
Proof.
  induction hs as [|[h m] hs IH]; intros f ls next B f' Hc Hn Hn62 HB E.
  - cbn [foldM] in E. apply Ok_inv in E as <-. apply st_refl. by eapply core_len.
  - cbn [foldM] in E. apply bind_ok in E as (f1 & E1 & E). unfold leaf in *. assert (Es : size ((h, m) :: hs) = size hs + 1) by (unfold size; cbn [length]; lia). rewrite Es in *.
    destruct (F_add_leaf_ok H f ls next B h m Hc ltac:(lia) Hn62 ltac:(lia)) as (f1' & E1' & Hc1 & _). rewrite E1 in E1'. apply Ok_inv in E1' as <-.
    assert (El : size (ls ++ [h]) = size ls + 1) by (unfold size; rewrite app_length; cbn [length]; lia).
    pose proof (IH f1 (ls ++ [h]) next (B + 65) f' Hc1 ltac:(lia) Hn62 ltac:(lia) E) as I. pose proof (proj1 Hc) as Hfn.
    destruct (F_add_leaf_pos H f _ f1 E1 ltac:(lia)) as [Hn1 Hst]. pose proof (core_len _ _ _ _ Hc1) as Hl1. rewrite Hn1 in I, Hl1.
    by apply (st_step _ _ (F_root_positions f1)); [lia|eapply core_len| | |].
Qed.
Lemma F_Add_steps f ls (hs : list leaf) f' : inv H f ls -> size ls + size hs <= 2 ^ 31 -> F_Add H f hs = Ok f' -> steps (f_n f) (F_root_positions f) (f_n f') (F_root_positions f').
Proof.
  intros Hi Hb E. destruct (F_Add_core H f ls hs f' Hi Hb E) as (d & Hc & E'). assert (H62 : 2 ^ 31 <= 2 ^ 62) by done.
  assert (H31 : 2 ^ 31 = 2147483648) by done. assert (H64 : two64 = 8589934592 * 2147483648) by done.
  unfold leaf in *. apply (add_leaves_steps hs (set_data f d) ls _ _ f' Hc); [unfold leaf; lia|lia|unfold leaf; lia|done].
Qed.
Lemma F_Modify_steps f us ls (adds : list leaf) ts f' : reachable H f us -> holds_leaves f ls -> size ls + size adds < 2 ^ 31 + size ts ->
  F_Modify H f adds ts = Ok (true, f') \/ (exists u, F_ModifyUndo H f adds ts = Ok (true, u, f')) ->
  size ts <= f_n f /\ f_n f' = f_n f - size ts + size adds /\
  exists ps1, (ts = [] -> ps1 = F_root_positions f) /\ (ts <> [] -> ps1 = place (NumRows (f_n f)) (f_n f - size ts)) /\ steps (f_n f - size ts) ps1 (f_n f') (F_root_positions f').
Proof.
  intros Hr Hh Hb E. destruct (modify_cases H f us ls adds ts f' Hr Hh Hb E) as (Hv & Hi' & Hnd & Hsz & Hn). apply F_Modify_split in E as (f1 & E1 & E2).
  destruct (reachable_holds H f us ls Hr Hh) as (Hi & Hn0 & _). pose proof (inv_wide _ _ _ Hi) as [Hfn _]. pose proof (inv_wide _ _ _ Hi') as [Hfn' _].
  destruct (F_Remove_all H f ls ts Hi Hn0 Hv) as (g & E1' & Hi1 & _ & _ & Hs1 & _). rewrite E1 in E1'. apply Ok_inv in E1'. injection E1' as <-.
  assert (H62 : 2 ^ 31 <= 2 ^ 62) by done. pose proof (inv_wide _ _ _ Hi1) as [Hfn1 _].
  unfold leaf in *. pose proof (F_Add_steps f1 _ adds f' Hi1 ltac:(unfold leaf; lia) E2) as Hst.
  assert (E0 : f_n f1 = f_n f - size ts) by lia. split; [lia|]. split; [lia|]. exists (F_root_positions f1). rewrite <- E0. split; [|split; [|done]].
  - intros ->. cbn in E1. apply Ok_inv in E1. by injection E1 as <-.
  - intros Hne. destruct (F_Remove_pos H f ts f1 E1) as [H1 H2]; [lia|lia|done|]. by rewrite H1, H2.
Qed.

(** ** The pollard *)
Lemma P_Add_steps (adds : list leaf) : forall p ls M p', PMark H p ls M -> size ls + size adds <= 2 ^ 62 -> P_Add H p adds = Ok p' ->
  p_n p' = p_n p + size adds /\ steps (p_n p) (P_root_positions p) (p_n p') (P_root_positions p').
Proof.
  unfold P_Add. induction adds as [|[h m] hs IH]; intros p ls M p' Hc Hn E.
  - cbn [foldM] in E. apply Ok_inv in E as <-. split; [change (size (@nil leaf)) with 0; lia|]. apply st_refl. rewrite (P_roots_len H p ls M Hc). by rewrite (proj1 Hc).
  - cbn [foldM] in E. apply bind_ok in E as (p1 & E1 & E). unfold leaf in *. assert (Es : size ((h, m) :: hs) = size hs + 1) by (unfold size; cbn [length]; lia). rewrite Es in *.
    destruct (P_add_leaf_mark H p ls M h m Hc ltac:(lia)) as (p1' & E1' & Hc1 & _). unfold leaf in *. rewrite E1 in E1'. apply Ok_inv in E1' as <-.
    assert (El : size (ls ++ [h]) = size ls + 1) by (unfold size; rewrite app_length; cbn [length]; lia).
    destruct (IH p1 (ls ++ [h]) _ p' Hc1 ltac:(lia) E) as [In I]. pose proof (proj1 Hc) as Hpn.
    destruct (P_add_leaf_pos H p _ p1 E1 ltac:(lia)) as [Hn1 Hst]. pose proof (P_roots_len H _ _ _ Hc) as Hl. rewrite <- Hpn in Hl.
    pose proof (P_roots_len H _ _ _ Hc1) as Hl1. rewrite El, <- Hpn in Hl1. rewrite Hn1 in I. split; [lia|].
    by apply (st_step _ _ (P_root_positions p1)); [lia| | | |].
Qed.
Lemma P_Modify_steps f p bp ths p1 (adds : list leaf) p' : synced H f p -> verifies H f p bp ths true p1 -> f_n f + size adds < 2 ^ 31 + size (m_sorted_targets bp) ->
  P_Modify H p1 adds (m_sorted_targets bp) = Ok (true, p') -> let ts := m_sorted_targets bp in
  size ts <= p_n p1 /\ p_n p' = p_n p1 - size ts + size adds /\
  exists ps1, (ts = [] -> ps1 = P_root_positions p1) /\ (ts <> [] -> ps1 = place (NumRows (p_n p1)) (p_n p1 - size ts)) /\ steps (p_n p1 - size ts) ps1 (p_n p') (P_root_positions p').
Proof.
  intros Hs (Hwf & E & Hnc) Hb EP ts. destruct (synced_inv H f p Hs) as (us & ls & Hr & Hh & Hn & HP). pose proof Hh as [Hfn _]. rewrite Hfn in Hb. assert (H62 : 2 ^ 31 <= 2 ^ 62) by done.
  pose proof (Verify_inv H p ls bp ths HP ltac:(lia) Hwf) as HV. rewrite E in HV. cbn [wp] in HV. destruct HV as (_ & _ & _ & Ht & _).
  destruct (Ht eq_refl) as [(Hv & _ & _) [Hc|[Hrd _]]]; [by apply Hnc in Hc|]. fold ts in Hb, EP, Hv, Hrd. clear Ht. clearbody ts.
  assert (Hsz : size ts <= size ls).
  { pose proof (leaf_row_dead ls ts Hv) as Hd. rewrite <- Hd. pose proof (dead_size (leaf_row ls ts)) as Hds. rewrite leaf_row_size in Hds. lia. }
  apply PReady_mark in Hrd as (M & Hrd). pose proof (proj1 Hrd) as Hpn.
  unfold P_Modify in EP. apply bind_ok in EP as ([b q] & E1 & EP). cbn [fst snd] in EP. destruct b; [|discriminate EP]. cbn [negb] in EP. apply bind_ok in EP as (q' & E2 & EP).
  apply Ok_inv in EP. injection EP as ->.
  assert (Hq : (exists ls1 M1, PMark H q ls1 M1 /\ size ls1 = size ls - size ts) /\ (ts = [] -> q = p1) /\ (ts <> [] -> P_root_positions q = place (NumRows (p_n p1)) (p_n q))).
  { destruct (decide (ts = [])) as [Ets|Hne].
    - rewrite Ets in E1. cbn [P_Remove] in E1. apply Ok_inv in E1. injection E1 as <-. split; [|by split]. exists ls, M. rewrite Ets. change (size (@nil N)) with 0. split; [|lia].
      destruct Hrd as [Hrn (L & HR & Ha & _)]. split; [done|]. by exists L.
    - destruct (P_Remove_mark H p1 ls ts M (PReadyM_stock _ _ _ _ _ Hrd) ltac:(lia) Hv Hne) as (q0 & M' & E0 & HM & Hsr & _). rewrite E1 in E0. apply Ok_inv in E0. injection E0 as <-.
      split; [by exists (spec_remove ls ts), M'|]. split; [done|]. intros _. destruct (P_Remove_pos H p1 ts q E1) as [G1 G2]; [lia|lia|done|]. by rewrite G1, G2. }
  destruct Hq as [(ls1 & M1 & HM & Hs1) [Hq1 Hq2]]. pose proof (proj1 HM) as Hqn.
  unfold leaf in *. destruct (P_Add_steps adds q ls1 M1 p' HM ltac:(unfold leaf; lia) E2) as [Hn' Hst]. unfold leaf in Hn'.
  assert (E0 : p_n q = p_n p1 - size ts) by lia. split; [lia|]. split; [lia|]. exists (P_root_positions q). rewrite <- E0. split; [intros ->; by rewrite Hq1|]. by split.
Qed.
End Accumulators.

(** ** In the words of the specification *)
Lemma steps_carried n ps n' ps' R R' : steps n ps n' ps' -> n < n' -> is_height n R -> is_height n' R' ->
  (n' = 2 -> ps' = [1]) /\ (n' <> 2 -> carried n n' R R' ps ps').
Proof.
  intros Hst Hlt <-%NumRows_height <-%NumRows_height. split; [by apply (steps_two _ _ _ _ Hst)|]. intros H2. pose proof (steps_moved _ _ _ _ Hst Hlt H2) as Hm. split.
  - exists (trees n'). split; [apply forest_root_rows|]. apply steps_le in Hst as (_ & _ & Hl). exact Hl.
  - intros T T' k r i HT HT' Ek. apply forest_unique in HT, HT'. subst T T'. apply (Hm k r i Ek).
Qed.
Lemma size_nil_iff {A} (l : list A) : l <> [] <-> 0 < size l.
Proof. destruct l; [split; [done|unfold size; cbn [length]; lia]|]. split; [unfold size; cbn [length]; lia|done]. Qed.

Section Props.
Context (H : hash -> hash -> hash).
Lemma F_place_exact f us (adds : list leaf) ts f' R R1 R' : reachable H f us -> f_n f + size adds < 2 ^ 31 + size ts ->
  F_Modify H f adds ts = Ok (true, f') \/ (exists u, F_ModifyUndo H f adds ts = Ok (true, u, f')) ->
  is_height (f_n f) R -> is_height (f_n f - size ts) R1 -> is_height (f_n f') R' ->
  exists ps, (ts = [] -> ps = F_root_positions f) /\ (ts <> [] -> placed (f_n f - size ts) R ps) /\
    (adds = [] -> F_root_positions f' = ps) /\
    (adds <> [] -> f_n f' = 2 -> F_root_positions f' = [1]) /\
    (adds <> [] -> f_n f' <> 2 -> carried (f_n f - size ts) (f_n f') R1 R' ps (F_root_positions f')).
Proof.
  intros Hr Hb E HR HR1 HR'. destruct (C01_lem H f us Hr) as (ls & Hh & _). pose proof Hh as [Hfn _]. rewrite Hfn in Hb.
  destruct (F_Modify_steps H f us ls adds ts f' Hr Hh Hb E) as (Hle & Hn' & ps & H1 & H2 & Hst). exists ps. apply NumRows_height in HR as HR0. split; [done|].
  split; [intros Hne; rewrite placed_place, <- HR0; auto|].
  split; [|rewrite !(size_nil_iff adds); split; [intros Ha E2|intros Ha E2]; by apply (steps_carried _ _ _ _ R1 R' Hst); [lia|..]].
  intros ->. change (size (@nil leaf)) with 0 in Hn'. symmetry. apply (steps_refl _ _ _ _ Hst). lia.
Qed.
Lemma F_place_right f us (adds : list leaf) ts f' R R1 R' : reachable H f us -> f_n f + size adds < 2 ^ 31 + size ts ->
  F_Modify H f adds ts = Ok (true, f') \/ (exists u, F_ModifyUndo H f adds ts = Ok (true, u, f')) ->
  is_height (f_n f) R -> is_height (f_n f - size ts) R1 -> is_height (f_n f') R' ->
  ts <> [] \/ (adds <> [] /\ (placed (f_n f) R (F_root_positions f) \/ f_n f = 2)) ->
  placed (f_n f') R' (F_root_positions f') <-> f_n f' <> 2 /\ (R1 = R \/ f_n f - size ts <= 1 \/ (adds <> [] /\ 2 ^ R1 <= f_n f')).
Proof.
  intros Hr Hb E HR HR1 HR' Hc. destruct (C01_lem H f us Hr) as (ls & Hh & _). pose proof Hh as [Hfn _]. rewrite Hfn in Hb.
  destruct (F_Modify_steps H f us ls adds ts f' Hr Hh Hb E) as (Hle & Hn' & ps & H1 & H2 & Hst). rewrite <- (good_iff _ _ _ HR) in Hc.
  apply NumRows_height in HR, HR1, HR'. subst R R1 R'. rewrite placed_place, !size_nil_iff in *.
  rewrite (right_iff (f_n f) _ _ _ _ Hst ltac:(lia)).
  - assert (0 < size adds <-> f_n f - size ts < f_n f') as -> by lia. done.
  - lia.
  - intros Hlt. apply H2. lia.
  - intros En. destruct Hc as [Hc|[_ Hg]]; [lia|]. rewrite H1; [done|]. destruct ts; [done|]. unfold size in En, Hle. cbn [length] in En, Hle. lia.
Qed.
Lemma P_place_exact f p bp ths v (adds : list leaf) p' R R1 R' : synced H f p -> verifies H f p bp ths true v -> f_n f + size adds < 2 ^ 31 + size (m_sorted_targets bp) ->
  P_Modify H v adds (m_sorted_targets bp) = Ok (true, p') -> let ts := m_sorted_targets bp in
  is_height (p_n v) R -> is_height (p_n v - size ts) R1 -> is_height (p_n p') R' ->
  exists ps, (ts = [] -> ps = P_root_positions v) /\ (ts <> [] -> placed (p_n v - size ts) R ps) /\
    (adds = [] -> P_root_positions p' = ps) /\
    (adds <> [] -> p_n p' = 2 -> P_root_positions p' = [1]) /\
    (adds <> [] -> p_n p' <> 2 -> carried (p_n v - size ts) (p_n p') R1 R' ps (P_root_positions p')).
Proof.
  intros Hs Hv Hb E ts HR HR1 HR'.
  destruct (P_Modify_steps H f p bp ths v adds p' Hs Hv Hb E) as (Hle & Hn' & ps & H1 & H2 & Hst). fold ts in Hle, Hn', H1, H2, Hst. clearbody ts. exists ps. apply NumRows_height in HR as HR0. split; [done|].
  split; [intros Hne; rewrite placed_place, <- HR0; auto|].
  split; [|rewrite !(size_nil_iff adds); split; [intros Ha E2|intros Ha E2]; by apply (steps_carried _ _ _ _ R1 R' Hst); [lia|..]].
  intros ->. change (size (@nil leaf)) with 0 in Hn'. symmetry. apply (steps_refl _ _ _ _ Hst). lia.
Qed.
Lemma P_place_right f p bp ths v (adds : list leaf) p' R R1 R' : synced H f p -> verifies H f p bp ths true v -> f_n f + size adds < 2 ^ 31 + size (m_sorted_targets bp) ->
  P_Modify H v adds (m_sorted_targets bp) = Ok (true, p') -> let ts := m_sorted_targets bp in
  is_height (p_n v) R -> is_height (p_n v - size ts) R1 -> is_height (p_n p') R' ->
  ts <> [] \/ (adds <> [] /\ (placed (p_n v) R (P_root_positions v) \/ p_n v = 2)) ->
  placed (p_n p') R' (P_root_positions p') <-> p_n p' <> 2 /\ (R1 = R \/ p_n v - size ts <= 1 \/ (adds <> [] /\ 2 ^ R1 <= p_n p')).
Proof.
  intros Hs Hv Hb E ts HR HR1 HR' Hc.
  destruct (P_Modify_steps H f p bp ths v adds p' Hs Hv Hb E) as (Hle & Hn' & ps & H1 & H2 & Hst). fold ts in Hle, Hn', H1, H2, Hst. clearbody ts. rewrite <- (good_iff _ _ _ HR) in Hc.
  apply NumRows_height in HR, HR1, HR'. subst R R1 R'. rewrite placed_place, !size_nil_iff in *.
  rewrite (right_iff (p_n v) _ _ _ _ Hst ltac:(lia)).
  - assert (0 < size adds <-> p_n v - size ts < p_n p') as -> by lia. done.
  - lia.
  - intros Hlt. apply H2. lia.
  - intros En. destruct Hc as [Hc|[_ Hg]]; [lia|]. rewrite H1; [done|]. destruct ts; [done|]. unfold size in En, Hle. cbn [length] in En, Hle. lia.
Qed.
End Props.

(** ** Examples *)
Lemma runD : run75 ex_H (adds_of true [10; 11; 12; 13; 14; 15; 16; 17; 18]) [14; 15; 16; 17] (adds_of false [20]) [4; 5; 6; 7] = Ok ([true; true; true; true; true], [9; 9; 6; 6], ([28; 8], [28; 8], [28; 8], [24; 10], [24; 10])).
Proof. vm_compute. reflexivity. Qed.
Lemma histD : exists f p bp v f' p', reachable ex_H f [] /\ synced ex_H f p /\ verifies ex_H f p bp [14; 15; 16; 17] true v /\ m_sorted_targets bp = [4; 5; 6; 7] /\
    F_Modify ex_H f [(20, false)] [4; 5; 6; 7] = Ok (true, f') /\ P_Modify ex_H v [(20, false)] [4; 5; 6; 7] = Ok (true, p') /\ reachable ex_H f' [] /\ synced ex_H f' p' /\
    f_n f = 9 /\ p_n v = 9 /\ f_n f' = 6 /\ p_n p' = 6 /\
    F_root_positions f = [28; 8] /\ P_root_positions p = [28; 8] /\ P_root_positions v = [28; 8] /\ F_root_positions f' = [24; 10] /\ P_root_positions p' = [24; 10].
Proof. hist runD. Qed.
Lemma exact_example : is_height 9 4 /\ is_height 5 3 /\ is_height 6 3 /\ placed 5 4 [24; 4] /\ placed 6 3 [12; 10].
Proof.
  split; [by apply NumRows_height|]. split; [by apply NumRows_height|]. split; [by apply NumRows_height|]. split; apply placed_place; vm_compute; reflexivity.
Qed.
