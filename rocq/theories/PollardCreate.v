(** * PollardCreate: CreateProofTree (proofs) *)
From stdpp Require Import sorting.
From Verif Require Import Base StateModel CodecModel ForestModel PollardModel PosSpec PosFacts PathFacts MerkleSpec CodecSpec CodecFacts TargetFacts ForestFacts
  RowFacts TransformFacts RemoveFacts ForestInv ForestSpec ProofSpec TakeFacts ProveFacts PollardRep PollardOps PollardAdd PollardRemove PollardRows PollardInit.
From Coq Require Import ZifyBool ZifyNat ZifyN.
Ltac Zify.zify_post_hook ::= idtac.
Ltac dlia := zify; Z.div_mod_to_equations; lia.

(** What is left to visit: the rows below [k] and the nodes [ri] of row [k]. *)
Definition pend (k : nat) (ri : list N) (r : nat) (i : N) : Prop := (r < k)%nat \/ (r = k /\ i ∈ ri).
Lemma pend_cons k i ri r j : pend k (i :: ri) r j <-> (r = k /\ j = i) \/ pend k ri r j.
Proof. unfold pend. rewrite elem_of_cons. tauto. Qed.

Definition covers (ch : chop) (b : bool) : Prop := match ch with ChopL => b = false | ChopR => b = true | ChopB => True end.

Lemma trees_nodup n : NoDup (trees n).
Proof.
  unfold trees. pose proof (sorted_root_rows n (N.to_nat (NumRows n))) as Hs. induction Hs as [|x l Hs IH Hf]; constructor; [|done].
  intros Hx. rewrite Forall_forall in Hf. apply Hf in Hx. lia.
Qed.

Section Tab.
Context (n : N) (ts : list N) (L0 : lmap).
Notation R := (NumRows n).
Notation T := (trees n).
Notation cmp := (cmpb n ts).
Definition tcs : list (nat * N) := (λ t : N * N, (N.to_nat t.1, t.2)) <$> T.
Lemma tcs_elem r i : (r, i) ∈ tcs <-> (N.of_nat r, i) ∈ T.
Proof.
  unfold tcs. rewrite elem_of_list_fmap. split.
  - intros ([a b] & [= -> ->] & Ht). by rewrite N2Nat.id.
  - intros Ht. eexists. split; [|done]. cbn [fst snd]. by rewrite Nat2N.id.
Qed.

(** The wrapper [w] of node [(r, i)]. *)
Record wspec (k : nat) (ri : list N) (cs : list (nat * N)) (L : lmap) (w : wnode) (r : nat) (i : N) : Prop := {
  ws_node : w_node w = L r i;
  ws_sib : w_sib w = L r (hp T r i);
  ws_par : match w_parent w with None => (N.of_nat r, i) ∈ T | Some y => (N.of_nat r, i) ∉ T /\ cs !! N.to_nat y = Some (S r, i / 2) end;
  ws_act : (N.of_nat r, i) ∉ T \/ ((k <= r)%nat /\ cmp r i = true) ->
     w_pos w = enc R (N.of_nat r) i /\ v_cached (w_flag w) = pres1 (L0 r i) /\ v_sibcached (w_flag w) = pres1 (L0 r (hp T r i)) /\
     v_valid (w_flag w) = false /\ (~ pend k ri r i -> v_target (w_flag w) = cmp r i) }.
Record TI (k : nat) (ri : list N) (t : list wnode) (cs : list (nat * N)) (L : lmap) : Prop := {
  ti_len : length cs = length t;
  ti_roots : take (length T) cs = tcs;
  ti_nodup : NoDup cs;
  ti_cs : forall r j, (r, j) ∈ cs -> (N.of_nat r, j) ∈ T \/ (cmp (S r) (j / 2) = true /\ ~ pend k ri (S r) (j / 2));
  ti_w : forall x r i, cs !! x = Some (r, i) -> exists w, t !! x = Some w /\ wspec k ri cs L w r i }.

Lemma TI_flag k i ri t cs L x w : TI k (i :: ri) t cs L -> cs !! x = Some (k, i) -> t !! x = Some w ->
  TI k ri (<[x := set_w_flag w (VFlag (v_valid (w_flag w)) (cmp k i) (v_cached (w_flag w)) (v_sibcached (w_flag w)))]> t) cs L.
Proof.
  intros HT Hx Hw. split.
  - rewrite insert_length. apply (ti_len _ _ _ _ _ HT).
  - apply (ti_roots _ _ _ _ _ HT).
  - apply (ti_nodup _ _ _ _ _ HT).
  - intros r j Hj. destruct (ti_cs _ _ _ _ _ HT r j Hj) as [?|[H1 H2]]; [by left|right]. split; [done|]. rewrite pend_cons in H2. tauto.
  - intros y r j Hy. destruct (ti_w _ _ _ _ _ HT y r j Hy) as (w' & Hw' & [W1 W2 W3 W4]). destruct (decide (y = x)) as [->|Hne].
    + rewrite Hy in Hx. injection Hx as -> ->. rewrite Hw' in Hw. apply (inj Some) in Hw as ->. eexists. split.
      { apply list_lookup_insert. by eapply lookup_lt_Some. }
      split; cbn [set_w_flag w_node w_sib w_parent w_pos w_flag v_cached v_sibcached v_valid v_target]; try done.
      intros Ha. destruct (W4 Ha) as (A1 & A2 & A3 & A4 & A5). split_and!; done.
    + exists w'. split; [by rewrite list_lookup_insert_ne|]. split; try done. intros Ha. destruct (W4 Ha) as (A1 & A2 & A3 & A4 & A5). split_and!; try done.
      intros Hp. apply A5. rewrite pend_cons. intros [[-> ->]|?]; [|done]. apply Hne. by apply (NoDup_lookup _ _ _ _ (ti_nodup _ _ _ _ _ HT) Hy Hx).
Qed.

Lemma TI_kids k i ri t cs L L' x : disj T -> TI (S k) ri t cs L -> (forall j, j / 2 = i -> (k, j) ∉ cs) -> cs !! N.to_nat x = Some (S k, i) -> cmp (S k) i = true ->
  i ∉ ri -> inT T (S k) i -> (forall r' j, (r' = k /\ (j = 2 * i \/ j = 2 * i + 1) -> False) -> L' r' j = L r' j) ->
  TI (S k) ri (t ++
      [WNode (L' k (2 * i)) (L' k (2 * i + 1)) (Some x) (enc R (N.of_nat k) (2 * i)) (VFlag false false (pres1 (L0 k (2 * i))) (pres1 (L0 k (2 * i + 1))));
       WNode (L' k (2 * i + 1)) (L' k (2 * i)) (Some x) (enc R (N.of_nat k) (2 * i + 1)) (VFlag false false (pres1 (L0 k (2 * i + 1))) (pres1 (L0 k (2 * i))))])
    (cs ++ [(k, 2 * i); (k, 2 * i + 1)]) L'.
Proof.
  intros Hd HT Hnew Hx Hc Hri Hin HL. destruct (half_2 i) as [Hh1 Hh2]. destruct (sib_2 i) as [Hs1 Hs2].
  assert (Hlen : (length T <= length cs)%nat).
  { pose proof (f_equal length (ti_roots _ _ _ _ _ HT)) as E. rewrite take_length in E. unfold tcs in E. rewrite fmap_length in E. lia. }
  split.
  - rewrite !app_length. cbn [length]. by rewrite (ti_len _ _ _ _ _ HT).
  - rewrite take_app_le by done. apply (ti_roots _ _ _ _ _ HT).
  - apply NoDup_app. split; [apply (ti_nodup _ _ _ _ _ HT)|]. split.
    + intros c Hcs [->|[->|?%elem_of_nil]%elem_of_cons]%elem_of_cons; [by apply (Hnew (2 * i))|by apply (Hnew (2 * i + 1))|done].
    + apply NoDup_cons. split; [intros E%elem_of_list_singleton; injection E; lia|apply NoDup_singleton].
  - intros r j [Hj|Hj]%elem_of_app; [by apply (ti_cs _ _ _ _ _ HT)|]. right.
    assert (r = k /\ j / 2 = i) as [-> ->].
    { apply elem_of_cons in Hj as [[= -> ->]|[[= -> ->]|?%elem_of_nil]%elem_of_cons]; done. }
    split; [done|]. intros [?|[_ ?]]; [lia|done].
  - intros y r j Hy. rewrite lookup_app in Hy. destruct (cs !! y) as [c|] eqn:E.
    + injection Hy as ->. destruct (ti_w _ _ _ _ _ HT y r j E) as (w' & Hw' & [W1 W2 W3 W4]). exists w'. split; [by apply lookup_app_l_Some|].
      assert (Hj : (r, j) ∈ cs) by (by eapply elem_of_list_lookup_2).
      assert (Hold : forall j', j' / 2 = j / 2 -> (r = k /\ (j' = 2 * i \/ j' = 2 * i + 1) -> False)).
      { intros j' Ej [-> Hj']. apply (Hnew j); [|done]. rewrite <- Ej. by destruct Hj' as [->| ->]. }
      split; [by rewrite HL by (by apply Hold)|rewrite HL by (apply Hold, hp_half); done| |done].
      destruct (w_parent w'); [|done]. destruct W3 as [??]. split; [done|]. by apply lookup_app_l_Some.
    + rewrite (ti_len _ _ _ _ _ HT) in Hy. apply lookup_ge_None in E. rewrite (ti_len _ _ _ _ _ HT) in E.
      remember (y - length t)%nat as m eqn:Em.
      assert (Hk : forall b, (N.of_nat k, 2 * i + b) ∈ T -> b < 2 -> False).
      { intros b Hb Hb2. eapply (kid_not_root T k (2 * i + b)); [done| |done]. replace ((2 * i + b) / 2) with i by dlia. done. }
      destruct m as [|[|m]]; cbn [lookup list_lookup] in Hy; try done; apply (inj Some), pair_equal_spec in Hy as [<- <-].
      * eexists. split; [rewrite lookup_app_r by done; rewrite <- Em; done|].
        assert (Hnr : (N.of_nat k, 2 * i) ∉ T) by (intros Hb; apply (Hk 0); [by rewrite N.add_0_r|lia]).
        assert (Ehp : hp T k (2 * i) = 2 * i + 1) by (rewrite hp_kid by (rewrite ?Hh1; done); done).
        split; cbn [w_node w_sib w_parent w_pos w_flag v_cached v_sibcached v_valid v_target].
        -- done.
        -- by rewrite Ehp.
        -- rewrite Hh1. split; [done|]. by apply lookup_app_l_Some.
        -- intros _. rewrite Ehp. split_and!; try done. intros Hp. exfalso. apply Hp. left. lia.
      * eexists. split; [rewrite lookup_app_r by lia; rewrite <- Em; done|].
        assert (Hnr : (N.of_nat k, 2 * i + 1) ∉ T) by (intros Hb; apply (Hk 1); [done|lia]).
        assert (Ehp : hp T k (2 * i + 1) = 2 * i) by (rewrite hp_kid by (rewrite ?Hh2; done); done).
        split; cbn [w_node w_sib w_parent w_pos w_flag v_cached v_sibcached v_valid v_target].
        -- done.
        -- by rewrite Ehp.
        -- rewrite Hh2. split; [done|]. by apply lookup_app_l_Some.
        -- intros _. rewrite Ehp. split_and!; try done. intros Hp. exfalso. apply Hp. left. lia.
Qed.

(** Starting row [k]: a computed root of that row becomes active. *)
Lemma TI_row k ri t t' cs L : TI (S k) [] t cs L -> (forall i, i ∈ ri <-> i ∈ srow n ts k) ->
  (t' = t /\ (forall i, i ∈ crow n ts k -> (N.of_nat k, i) ∉ T)) \/
  (exists x i w, t' = <[x := set_w_flag (set_w_pos w (enc R (N.of_nat k) i)) (VFlag false false true true)]> t /\ t !! x = Some w /\ cs !! x = Some (k, i) /\
     (N.of_nat k, i) ∈ T /\ is_Some (L0 k i) /\ forall j, j ∈ crow n ts k -> j <> i -> (N.of_nat k, j) ∉ T) ->
  TI k ri t' cs L.
Proof.
  intros HT Hri Hcase. split.
  - rewrite (ti_len _ _ _ _ _ HT). destruct Hcase as [[-> _]|(x & i & w & -> & _)]; [done|by rewrite insert_length].
  - apply HT.
  - apply HT.
  - intros r j Hj. destruct (ti_cs _ _ _ _ _ HT r j Hj) as [?|[H1 H2]]; [by left|right]. split; [done|]. intros Hp. apply H2.
    left. destruct Hp as [?|[E _]]; lia.
  - intros x r i Hx. destruct (ti_w _ _ _ _ _ HT x r i Hx) as (w & Hw & [W1 W2 W3 W4]).
    assert (Hcs : (r, i) ∈ cs) by (by eapply elem_of_list_lookup_2).
    assert (Hold : (N.of_nat r, i) ∉ T ∨ ((k < r)%nat ∧ cmp r i = true) ->
        w_pos w = enc R (N.of_nat r) i /\ v_cached (w_flag w) = pres1 (L0 r i) /\ v_sibcached (w_flag w) = pres1 (L0 r (hp T r i)) /\
     v_valid (w_flag w) = false /\ (~ pend k ri r i -> v_target (w_flag w) = cmp r i)).
    { intros Ha. destruct W4 as (A1 & A2 & A3 & A4 & A5); [destruct Ha as [?|[??]]; [by left|right; split; [lia|done]]|].
      split_and!; try done. intros Hp. apply A5. intros [Hr|[_ ?%elem_of_nil]]; [|done]. apply Hp.
      destruct Ha as [Ha|[Ha _]]; [|lia]. destruct (decide (r = k)) as [->|]; [|left; lia]. right. split; [done|]. apply Hri.
      apply elem_of_app. left. apply kids_elem, crow_elem, cmpb_iff. by destruct (ti_cs _ _ _ _ _ HT k i Hcs) as [?|[? _]]. }
    destruct Hcase as [[-> Hnr]|(x0 & i0 & w0 & -> & Hw0 & Hx0 & Hr0 & HL0 & Hnr)].
    + exists w. split; [done|]. split; try done. intros Ha. apply Hold. destruct Ha as [?|[H1 H2]]; [by left|].
      destruct (decide (r = k)) as [->|]; [|right; split; [lia|done]]. left. apply Hnr. apply crow_elem. by apply cmpb_iff.
    + destruct (decide (x = x0)) as [->|Hne].
      * rewrite Hx0 in Hx. injection Hx as <- <-. rewrite Hw in Hw0. apply (inj Some) in Hw0 as <-. eexists. split.
        { apply list_lookup_insert. by eapply lookup_lt_Some. }
        split; cbn [set_w_flag set_w_pos w_node w_sib w_parent w_pos w_flag v_cached v_sibcached v_valid v_target]; try done.
        intros [?|[_ Hc]]; [done|]. rewrite hp_root by done. destruct HL0 as [l ->]. cbn [pres1]. split_and!; try done.
        intros Hp. exfalso. apply Hp. right. split; [done|]. apply Hri, elem_of_app. right. apply elem_of_list_filter. split; [done|].
        by apply crow_elem, cmpb_iff.
      * exists w. split; [by rewrite list_lookup_insert_ne|]. split; try done. intros Ha. apply Hold. destruct Ha as [?|[H1 H2]]; [by left|].
        destruct (decide (r = k)) as [->|]; [|right; split; [lia|done]]. left. apply Hnr; [by apply crow_elem, cmpb_iff|].
        intros ->. apply Hne. by apply (NoDup_lookup _ _ _ _ (ti_nodup _ _ _ _ _ HT) Hx Hx0).
Qed.
End Tab.

Lemma pre_lookup (cs cs' : list (nat * N)) x v : cs `prefix_of` cs' -> cs !! x = Some v -> cs' !! x = Some v.
Proof. intros [k ->] Hx. by apply lookup_app_l_Some. Qed.
Lemma hd_in l x : hd_is l x = true -> x ∈ l.
Proof. destruct l as [|y l]; [done|]. cbn [hd_is]. intros ->%N.eqb_eq. left. Qed.

Definition hvL (h : heap) (L : lmap) (r : nat) (i : N) : hash := match L r i with Some l => hv h l | None => 0 end.
Lemma hvL_some h L r i l : L r i = Some l -> hvL h L r i = hv h l.
Proof. intros E. unfold hvL. by rewrite E. Qed.

(** ** The whole invariant *)
Section Create.
Context (n : N) (Hn : n <= 2 ^ 62) (ts : list N) (p0 : pollard) (L0 : lmap) (M0 : N -> bool) (g : nat -> N -> hash) (prf : list hash).
Notation R := (NumRows n).
Notation T := (trees n).
Notation cmp := (cmpb n ts).

Fixpoint belowh (k : nat) : list hash := match k with O => [] | S k' => (g k' <$> rev (nrow n ts k')) ++ belowh k' end.
(** The needed nodes, in the order in which they are visited. *)
Fixpoint belowp (k : nat) : list (nat * N) := match k with O => [] | S k' => ((λ i, (k', i)) <$> rev (nrow n ts k')) ++ belowp k' end.
(** What is stored at a node before, and its true hash. *)
Definition sto (x : nat * N) : option hash := if pres1 (L0 x.1 x.2) then Some (g x.1 x.2) else None.
Definition gx (x : nat * N) : hash := g x.1 x.2.
(** The hashes of the proof are used up and give the needed nodes their true hashes. *)
Definition hon : Prop := takes (sto <$> belowp (S (N.to_nat R))) (rev prf) (gx <$> belowp (S (N.to_nat R))) [].
(** The hashes of the proof are used up. *)
Definition spent : Prop := exists out, takes (sto <$> belowp (S (N.to_nat R))) (rev prf) out [].
Lemma hon_spent : hon -> spent.
Proof. intros Hh. eexists. exact Hh. Qed.
Definition halt (x : option hash) : Prop := halts (sto <$> belowp (S (N.to_nat R))) (rev prf) x.
Definition Z : Prop := ~ hon /\ (exists r i, needed n ts (N.of_nat r) i /\ is_Some (L0 r i) /\ g r i = zero_hash) /\ halt (Some zero_hash).

Record HI (k : nat) (ri : list N) (p : pollard) (L : lmap) : Prop := {
  hi_n : p_n p = n;
  hi_roots : p_roots p = p_roots p0;
  hi_pm : p_posmap p = p_posmap p0;
  hi_rep : rep p T L M0;
  hi_old : agree p T L0 g;
  hi_sub : forall r i l, L0 r i = Some l -> L r i = Some l;
  hi_diff : forall r i, L r i = L0 r i \/ (cmp (S r) (i / 2) = true /\ ~ pend k ri (S r) (i / 2));
  hi_new : forall r i, cmp (S r) (i / 2) = true -> ~ pend k ri (S r) (i / 2) -> is_Some (L r i) }.
Record RI (rec : list (N * chop)) (cs : list (nat * N)) (L : lmap) : Prop := {
  ri_src : forall x ch, (x, ch) ∈ rec -> exists r d, cs !! N.to_nat x = Some (S r, d) /\ forall y, y / 2 = d -> covers ch (N.odd y) -> L0 r y = None;
  ri_all : forall r y, L0 r y = None -> is_Some (L r y) -> exists x ch, (x, ch) ∈ rec /\ cs !! N.to_nat x = Some (S r, y / 2) /\ covers ch (N.odd y) }.
(** The hashes used so far are those stored in some of the visited nodes. *)
Definition rest (k : nat) (ri : list N) : list (nat * N) := ((λ i, (k, i)) <$> filter (λ i, cmp k i = false) ri) ++ belowp k.
Definition LG (k : nat) (ri : list N) (p : pollard) (L : lmap) (hs : list hash) : Prop := exists vs, vs ++ rest k ri = belowp (S (N.to_nat R)) /\
  takes (sto <$> vs) (rev prf) ((λ x : nat * N, hvL (p_heap p) L x.1 x.2) <$> vs) hs.
Record LI (k : nat) (ri : list N) (p : pollard) (L : lmap) (comp pps : list N) (hs : list hash) : Prop := {
  li_comp : comp = (enc R (N.of_nat k) <$> filter (λ i, cmp k i = true) ri) ++ below n (crow n ts) k;
  li_pp : pps = (enc R (N.of_nat k) <$> filter (λ i, cmp k i = false) ri) ++ below n (nrow n ts) k;
  li_hs : hon -> takes (sto <$> rest k ri) hs (gx <$> rest k ri) [];
  li_ok : hon -> forall r i l, needed n ts (N.of_nat r) i -> ~ pend k ri r i -> L r i = Some l -> hv (p_heap p) l = g r i;
  li_g : LG k ri p L hs }.
Record CI (k : nat) (ri : list N) (c : cstate) (cs : list (nat * N)) (L : lmap) : Prop := {
  ci_t : TI n ts L0 k ri (c_t c) cs L;
  ci_h : HI k ri (c_p c) L;
  ci_r : RI (c_rec c) cs L;
  ci_l : LI k ri (c_p c) L (c_computed c) (c_proofpos c) (c_hashes c) }.

(** What still holds when the hashes have run out. *)
Definition CW (k : nat) (ri : list N) (c : cstate) (cs : list (nat * N)) (L : lmap) : Prop := TI n ts L0 k ri (c_t c) cs L /\ HI k ri (c_p c) L /\ RI (c_rec c) cs L.

Definition ids (cs : list (nat * N)) (r : nat) (xs is : list N) : Prop := Forall2 (λ x i, cs !! N.to_nat x = Some (r, i)) xs is.
Definition nextl (k : nat) (is : list N) : list N := match k with O => is | S _ => kids (filter (λ i, cmp k i = true) is) end.
Lemma ids_mono cs cs' r xs is : cs `prefix_of` cs' -> ids cs r xs is -> ids cs' r xs is.
Proof. intros Hp Hf. eapply Forall2_impl; [exact Hf|]. intros x i Hx. by apply (pre_lookup cs). Qed.
Lemma nextl_app k a b : nextl k (a ++ b) = nextl k a ++ nextl k b.
Proof. destruct k; [done|]. cbn [nextl]. by rewrite filter_app, kids_app. Qed.

Lemma leaf_test k i : node n (N.of_nat k) i -> (enc R (N.of_nat k) i <? n) = (k =? 0)%nat.
Proof.
  intros Hi. destruct k as [|k].
  - change (N.of_nat 0) with 0. rewrite enc_0. unfold node in Hi. change (2 ^ N.of_nat 0) with 1 in Hi. apply N.ltb_lt. lia.
  - cbn [Nat.eqb]. apply N.ltb_ge. assert (Hl : node n (N.of_nat 0) (n - 1)).
    { unfold node in *. change (2 ^ N.of_nat 0) with 1. pose proof (pow_pos (N.of_nat (S k))). nia. }
    pose proof (enc_row_lt n Hn _ _ _ _ (node_slot _ _ _ Hl) (node_slot _ _ _ Hi) ltac:(lia)) as Hlt. change (N.of_nat 0) with 0 in Hlt. rewrite enc_0 in Hlt. lia.
Qed.
Lemma hd_row (f : nat -> list N) (b : bool) k i ri : (forall r j, j ∈ f r -> node n (N.of_nat r) j) -> (forall j, j ∈ i :: ri -> node n (N.of_nat k) j) -> i ∉ ri ->
  hd_is ((enc R (N.of_nat k) <$> filter (λ i, cmp k i = b) (i :: ri)) ++ below n f k) (enc R (N.of_nat k) i) = bool_decide (cmp k i = b).
Proof.
  intros Hf Hri Hi. case_bool_decide as Hb.
  - rewrite filter_cons_True by done. cbn [fmap list_fmap app hd_is]. apply N.eqb_refl.
  - apply not_true_iff_false. intros He%hd_in. apply elem_of_app in He as [He|He].
    + apply elem_of_list_fmap in He as (j & E%enc_inj1 & [Hj _]%elem_of_list_filter). subst j. done.
    + apply below_elem in He as (r & j & Hr & Hj & E). apply enc_inj in E as [E _]; [lia|apply node_slot, Hri; left|apply node_slot; by apply Hf].
Qed.
Lemma tl_row (f : list N) (b : bool) (h : N -> N) k i ri : cmp k i = b ->
  (h <$> filter (λ i, cmp k i = b) (i :: ri)) ++ f = h i :: (h <$> filter (λ i, cmp k i = b) ri) ++ f.
Proof. intros Hb. by rewrite filter_cons_True. Qed.
Lemma skip_row (f : list N) (b : bool) (h : N -> N) k i ri : cmp k i <> b ->
  (h <$> filter (λ i, cmp k i = b) (i :: ri)) ++ f = (h <$> filter (λ i, cmp k i = b) ri) ++ f.
Proof. intros Hb. by rewrite filter_cons_False. Qed.

Lemma belowp_elem k r i : (r, i) ∈ belowp k <-> (r < k)%nat /\ needed n ts (N.of_nat r) i.
Proof. clear.
  induction k as [|k IH]; cbn [belowp]; [split; [by intros ?%elem_of_nil|lia]|]. rewrite elem_of_app, IH, elem_of_list_fmap.
  assert (Hrev : forall j, j ∈ rev (nrow n ts k) <-> needed n ts (N.of_nat k) j) by (intros j; by rewrite elem_of_list_In, <- in_rev, <- elem_of_list_In, nrow_elem).
  split.
  - intros [(j & E & Hj)|[Hr Hn']]; [|split; [lia|done]]. injection E as -> ->. split; [lia|by apply Hrev].
  - intros [Hr Hn']. destruct (decide (r = k)) as [->|]; [left|right; split; [lia|done]]. exists i. split; [done|by apply Hrev].
Qed.
Lemma belowp_NoDup k : NoDup (belowp k).
Proof. clear.
  induction k as [|k IH]; cbn [belowp]; [constructor|]. apply NoDup_app. split; [|split; [|done]].
  - apply NoDup_fmap_2; [intros ? ? E; by injection E|]. rewrite <- (Permutation_rev (nrow n ts k)). apply sorted_lt_NoDup, nrow_sorted.
  - intros [r i] (j & E & _)%elem_of_list_fmap Hb%belowp_elem. injection E as -> ->. lia.
Qed.
Lemma belowp_hash k : belowh k = (λ x : nat * N, g x.1 x.2) <$> belowp k.
Proof. clear. induction k as [|k IH]; cbn [belowh belowp]; [done|]. rewrite fmap_app, IH. f_equal. by rewrite <- list_fmap_compose. Qed.
Lemma rest_skip k i ri : cmp k i = true -> rest k (i :: ri) = rest k ri.
Proof. clear. intros Hc. unfold rest. by rewrite filter_cons_False by congruence. Qed.
Lemma rest_tl k i ri : cmp k i = false -> rest k (i :: ri) = (k, i) :: rest k ri.
Proof. clear. intros Hc. unfold rest. by rewrite filter_cons_True by congruence. Qed.
Lemma sto_some r i l : L0 r i = Some l -> sto (r, i) = Some (g r i).
Proof. clear. intros E. unfold sto. cbn [fst snd]. by rewrite E. Qed.
Lemma sto_none r i : L0 r i = None -> sto (r, i) = None.
Proof. clear. intros E. unfold sto. cbn [fst snd]. by rewrite E. Qed.
Lemma sto_gx vs : takes (sto <$> vs) (gx <$> vs) (gx <$> vs) [].
Proof. clear. apply takes_full. apply Forall2_fmap, Forall_Forall2_diag, Forall_forall. intros x _. unfold sto, gx. destruct (pres1 _); [by right|by left]. Qed.
Lemma hon_full : rev prf = belowh (S (N.to_nat R)) -> hon.
Proof. clear. intros E. unfold hon. rewrite E, belowp_hash. apply sto_gx. Qed.
Lemma done_ext k ri vs (p p' : pollard) L L' : vs ++ rest k ri = belowp (S (N.to_nat R)) ->
  (forall r j, needed n ts (N.of_nat r) j -> (r, j) ∉ rest k ri -> hvL (p_heap p') L' r j = hvL (p_heap p) L r j) ->
  ((λ x : nat * N, hvL (p_heap p') L' x.1 x.2) <$> vs) = ((λ x : nat * N, hvL (p_heap p) L x.1 x.2) <$> vs).
Proof.
  intros Hvs Hv. apply list_fmap_ext. intros m [r j] Hin%elem_of_list_lookup_2. cbn [fst snd].
  apply Hv.
  - apply (belowp_elem (S (N.to_nat R))). rewrite <- Hvs. apply elem_of_app. by left.
  - pose proof (belowp_NoDup (S (N.to_nat R))) as Hnd. rewrite <- Hvs in Hnd. apply NoDup_app in Hnd as (_ & Hnd & _). by apply Hnd.
Qed.
Lemma LG_skip k i ri p p' L L' hs : cmp k i = true -> LG k (i :: ri) p L hs ->
  (forall r j, needed n ts (N.of_nat r) j -> (r, j) ∉ rest k ri -> hvL (p_heap p') L' r j = hvL (p_heap p) L r j) -> LG k ri p' L' hs.
Proof.
  intros Hc (vs & Hvs & E) Hv. rewrite rest_skip in Hvs by done. exists vs. split; [done|].
  by rewrite (done_ext k ri vs p p' L L').
Qed.
Lemma LG_use k i ri p p' L h hs hs' : cmp k i = false -> LG k (i :: ri) p L hs -> hvL (p_heap p') L k i = h -> takes [sto (k, i)] hs [h] hs' ->
  (forall r j, needed n ts (N.of_nat r) j -> ~ (r = k /\ j = i) -> hvL (p_heap p') L r j = hvL (p_heap p) L r j) -> LG k ri p' L hs'.
Proof.
  intros Hc (vs & Hvs & E) Hh Ht Hv. exists (vs ++ [(k, i)]). split.
  - rewrite <- Hvs, rest_tl by done. by rewrite <- app_assoc.
  - rewrite !fmap_app. apply takes_app with hs; [|cbn [fmap list_fmap fst snd]; by rewrite Hh]. rewrite (done_ext k (i :: ri) vs p p' L L); [done..|].
    intros r j Hnd Hr. apply Hv; [done|]. intros [-> ->]. apply Hr. rewrite rest_tl by done. left.
Qed.
Lemma LG_halt k i ri p L : cmp k i = false -> LG k (i :: ri) p L [] -> halt (sto (k, i)).
Proof.
  intros Hc (vs & Hvs & E). rewrite rest_tl in Hvs by done. exists (sto <$> vs), (sto <$> rest k ri). eexists. split; [|exact E].
  by rewrite <- Hvs, fmap_app.
Qed.
(** Visiting a node that makes no children. *)
Lemma HI_skip k i ri p L : (k = O \/ cmp k i = false) -> HI k (i :: ri) p L -> HI k ri p L.
Proof.
  intros Hk HH. split; try apply HH.
  - intros r j. destruct (hi_diff _ _ _ _ HH r j) as [?|[H1 H2]]; [by left|right]. split; [done|]. rewrite pend_cons in H2. tauto.
  - intros r j H1 H2. apply (hi_new _ _ _ _ HH); [done|]. rewrite pend_cons. intros [[E1 E2]|?]; [|done]. destruct Hk as [->|Hk]; [done|].
    rewrite <- E1, <- E2, H1 in Hk. done.
Qed.
Lemma HI_sib k i ri p L : HI k (i :: ri) p L -> i ∈ srow n ts k -> is_Some (L k i) /\ is_Some (L k (hp T k i)).
Proof.
  intros HH Hi. apply elem_of_app in Hi as [Hi|Hi].
  - apply kids_elem, crow_elem, cmpb_iff in Hi.
    assert (Hp : ~ pend k (i :: ri) (S k) (i / 2)) by (intros [?|[? _]]; lia).
    split; apply (hi_new _ _ _ _ HH); by rewrite ?hp_half.
  - apply elem_of_list_filter in Hi as [Hr _]. rewrite hp_root by done. split; by apply (rp_root _ _ _ _ (hi_rep _ _ _ _ HH)).
Qed.
Lemma TI_act k i ri t cs L x : TI n ts L0 k (i :: ri) t cs L -> cs !! x = Some (k, i) -> i ∈ srow n ts k ->
  exists w, t !! x = Some w /\ w_node w = L k i /\ w_sib w = L k (hp T k i) /\ w_pos w = enc R (N.of_nat k) i /\ v_cached (w_flag w) = pres1 (L0 k i).
Proof.
  intros HT Hx Hi. destruct (ti_w _ _ _ _ _ _ _ _ HT _ _ _ Hx) as (w & Hw & [W1 W2 W3 W4]). exists w. destruct W4 as (A1 & A2 & _); [|done].
  apply elem_of_app in Hi as [Hi|Hi].
  - left. apply (kid_not_root T k i (trees_disj n)). apply trees_under. apply kids_elem, crow_node in Hi. done.
  - right. apply elem_of_list_filter in Hi as [_ Hi]. split; [lia|]. by apply cmpb_iff, crow_elem.
Qed.

Lemma create_node_ok k i ri c cs L x : CI k (i :: ri) c cs L -> (forall j, j ∈ i :: ri -> j ∈ srow n ts k) -> i ∉ ri -> cs !! N.to_nat x = Some (k, i) ->
  wp Z (create_node n c x) (λ o, exists cs' L', cs `prefix_of` cs' /\
    match o.2 with None => CW k ri o.1 cs' L' /\ ~ hon /\ halt None | Some front => CI k ri o.1 cs' L' /\ ids cs' (pred k) front (nextl k [i]) end).
Proof.
  intros [HT HH HRI HLI] Hri Hi Hx. pose proof (Hri i ltac:(left)) as His. pose proof (srow_node n ts k i His) as Hnode.
  assert (Hin : inT T k i) by (by apply trees_under).
  destruct (TI_act _ _ _ _ _ _ _ HT Hx His) as (w & Hw & W1 & W2 & W3 & W4).
  destruct (HI_sib _ _ _ _ _ HH His) as [[l Hl] [s Hs]].
  pose proof (TI_flag n ts L0 _ _ _ _ _ _ _ _ HT Hx Hw) as HT1.
  unfold create_node. rewrite (vec_get_eq _ _ _ Hw). cbn [bind]. rewrite W3, leaf_test by done.
  rewrite (li_comp _ _ _ _ _ _ _ HLI), (li_pp _ _ _ _ _ _ _ HLI).
  assert (Hnr : forall r j, j ∈ nrow n ts r -> node n (N.of_nat r) j).
  { intros r j Hj%nrow_elem. apply (srow_node n ts), srow_elem. by right. }
  assert (Hrn : forall j, j ∈ i :: ri -> node n (N.of_nat k) j) by (intros j Hj; by apply (srow_node n ts), Hri).
  rewrite (hd_row (crow n ts) true k i ri (crow_node n ts) Hrn Hi), (hd_row (nrow n ts) false k i ri Hnr Hrn Hi).
  destruct (cmp k i) eqn:Hc.
  - rewrite (bool_decide_true (true = true)), (bool_decide_false (true = false)) by done. cbn [negb andb orb assert_ bind].
    rewrite (vec_set_eq _ _ _ _ Hw). cbn [bind c_p c_t c_rec c_computed c_proofpos c_hashes]. rewrite tl_row by done. cbn [tl].
    destruct k as [|k]; cbn [Nat.eqb].
    + cbn [wp fst snd]. exists cs, L. split; [done|]. split; [split; cbn [c_p c_t c_rec c_computed c_proofpos c_hashes]|].
      * done.
      * apply HI_skip with i; [by left|done].
      * done.
      * split; try done.
        -- rewrite skip_row by congruence. done.
        -- intros Hh. rewrite <- (rest_skip _ i ri Hc). exact (li_hs _ _ _ _ _ _ _ HLI Hh).
        -- intros Hh r j l' Hnd Hp. apply (li_ok _ _ _ _ _ _ _ HLI Hh r j l' Hnd). rewrite pend_cons. intros [[-> ->]|?]; [|done].
           apply cmpb_iff in Hc. by destruct Hnd as (_ & _ & ?).
        -- by apply (LG_skip 0 i ri (c_p c) (c_p c) L L); [|apply HLI|].
      * repeat constructor. done.
    + remember (set_w_flag w (VFlag (v_valid (w_flag w)) true (v_cached (w_flag w)) (v_sibcached (w_flag w)))) as w1 eqn:Ew1.
      remember (@insert nat wnode (list wnode) _ (N.to_nat x) w1 (c_t c)) as t1 eqn:Et1.
      assert (Hw1 : t1 !! N.to_nat x = Some w1).
      { subst t1. apply list_lookup_insert. by eapply lookup_lt_Some. }
      pose proof (hi_rep _ _ _ _ HH) as HR.
      destruct (InitChildren_ok n Hn (c_p c) t1 x w1 L M0 k i s (hi_n _ _ _ _ HH) HR Hnode Hw1 ltac:(rewrite Ew1; cbn [w_sib set_w_flag]; by rewrite W2, Hs)
        ltac:(rewrite Ew1; done) Hs) as (p' & L' & E & Hn' & Hr' & Hm' & HR' & Hsub & Hdiff & Hl1 & Hl2 & Hv).
      rewrite E. cbn [bind wp fst snd].
      assert (Hnew : forall j, j / 2 = i -> (k, j) ∉ cs).
      { intros j Ej Hj. destruct (ti_cs _ _ _ _ _ _ _ _ HT _ _ Hj) as [Hrt|[_ Hp]].
        - apply (kid_not_root T k j (trees_disj n)) in Hrt; [done|]. by rewrite Ej.
        - apply Hp. right. split; [done|]. rewrite Ej. left. }
      assert (HL0 : forall j, j / 2 = i -> L k j = L0 k j).
      { intros j Ej. destruct (hi_diff _ _ _ _ HH k j) as [?|[_ Hp]]; [done|]. exfalso. apply Hp. right. split; [done|]. rewrite Ej. left. }
      destruct (half_2 i) as [Hh1 Hh2]. rewrite !HL0 in E |- * by done.
      exists (cs ++ [(k, 2 * i); (k, 2 * i + 1)]), L'. split; [by apply prefix_app_r|].
      assert (Hkid : forall j, j / 2 = i -> j = 2 * i \/ j = 2 * i + 1).
      { intros j <-. apply two_half. }
      split; [split; cbn [c_p c_t c_rec c_computed c_proofpos c_hashes]|].
      * apply (TI_kids n ts L0 k i ri t1 cs L L' x); try done. apply trees_disj.
      * split; try done.
        -- by rewrite Hr', (hi_roots _ _ _ _ HH).
        -- by rewrite Hm', (hi_pm _ _ _ _ HH).
        -- intros r j l' Hj Ej. rewrite Hv; [by apply (hi_old _ _ _ _ HH)|]. apply (hi_sub _ _ _ _ HH) in Ej.
           by destruct (rp_dom _ _ _ _ HR _ _ _ Hj Ej) as (_ & ? & _).
        -- intros r j l' Ej. apply Hsub. by apply (hi_sub _ _ _ _ HH).
        -- intros r j. destruct (decide (r = k /\ j / 2 = i)) as [[-> Ej]|Hne].
           ++ right. rewrite Ej. split; [done|]. intros [?|[_ ?]]; [lia|done].
           ++ rewrite Hdiff by (intros [-> [->| ->]]; apply Hne; done). destruct (hi_diff _ _ _ _ HH r j) as [?|[H1 H2]]; [by left|right].
              split; [done|]. rewrite pend_cons in H2. tauto.
        -- intros r j H1 H2. destruct (decide (r = k /\ j / 2 = i)) as [[-> Ej]|Hne]; [destruct (Hkid j Ej) as [->| ->]; done|].
           rewrite Hdiff by (intros [-> [->| ->]]; apply Hne; done). apply (hi_new _ _ _ _ HH); [done|]. rewrite pend_cons. intros [[E1 E2]|?]; [|done].
           apply Hne. split; [lia|done].
      * assert (Hpre : cs `prefix_of` cs ++ [(k, 2 * i); (k, 2 * i + 1)]) by (by apply prefix_app_r).
        remember (if negb (pres1 (L0 k (2 * i))) && negb (pres1 (L0 k (2 * i + 1))) then c_rec c ++ [(x, ChopB)]
                  else if negb (pres1 (L0 k (2 * i))) then c_rec c ++ [(x, ChopL)]
                  else if negb (pres1 (L0 k (2 * i + 1))) then c_rec c ++ [(x, ChopR)] else c_rec c) as rec' eqn:Erec.
        assert (Hrec : (rec' = c_rec c /\ is_Some (L0 k (2 * i)) /\ is_Some (L0 k (2 * i + 1))) \/ exists ch, rec' = c_rec c ++ [(x, ch)] /\
            (forall y, y / 2 = i -> covers ch (N.odd y) <-> L0 k y = None)).
        { destruct (odd_2 i) as [Ho1 Ho2]. destruct (L0 k (2 * i)) eqn:E1, (L0 k (2 * i + 1)) eqn:E2; cbn [pres1 negb andb] in Erec; subst rec'; [by left|right..];
          eexists; (split; [done|]); intros y Hy; destruct (Hkid y Hy) as [->| ->]; cbn [covers]; rewrite ?Ho1, ?Ho2, ?E1, ?E2; done. }
        clear Erec. split.
        -- intros x' ch Hxc.
           assert (Hcase : (x', ch) ∈ c_rec c \/ (x' = x /\ (forall y, y / 2 = i -> covers ch (N.odd y) <-> L0 k y = None))).
           { destruct Hrec as [[-> _]|(ch0 & -> & Hch)]; [by left|]. apply elem_of_app in Hxc as [?|Hxc%elem_of_list_singleton]; [by left|right].
             injection Hxc as -> ->. done. }
           destruct Hcase as [Hin'|[-> Hch]].
           ++ destruct (ri_src _ _ _ HRI _ _ Hin') as (r & d & H1 & H2). exists r, d. split; [by apply (pre_lookup cs)|done].
           ++ exists k, i. split; [by apply (pre_lookup cs)|]. intros y Hy Hc'. by apply Hch.
        -- intros r y H1 H2. destruct (decide (r = k /\ y / 2 = i)) as [[-> Ey]|Hne].
           ++ destruct Hrec as [(-> & H3 & H4)|(ch0 & -> & Hch)].
              { exfalso. destruct H3 as [? H3], H4 as [? H4]. destruct (Hkid y Ey) as [->| ->]; congruence. }
              exists x, ch0. split; [apply elem_of_app; right; by apply elem_of_list_singleton|]. split; [rewrite Ey; by apply (pre_lookup cs)|]. by apply Hch.
           ++ rewrite Hdiff in H2 by (intros [-> [->| ->]]; apply Hne; done). destruct (ri_all _ _ _ HRI r y H1 H2) as (x' & ch & H3 & H4 & H5).
              exists x', ch. split; [|split; [by apply (pre_lookup cs)|done]].
              destruct Hrec as [(-> & _)|(ch0 & -> & _)]; [done|]. apply elem_of_app. by left.
      * split; try done.
        -- rewrite skip_row by congruence. done.
        -- intros Hh. rewrite <- (rest_skip _ i ri Hc). exact (li_hs _ _ _ _ _ _ _ HLI Hh).
        -- intros Hh r j l' Hnd Hp Hl'. assert (r <> k) by (intros ->; apply Hp; left; lia). rewrite Hdiff in Hl' by (intros [? _]; done).
           assert (Hj : inT T r j).
           { apply trees_under. apply (srow_node n ts). apply srow_elem. by right. }
           rewrite Hv by (by destruct (rp_dom _ _ _ _ HR _ _ _ Hj Hl') as (_ & ? & _)).
           apply (li_ok _ _ _ _ _ _ _ HLI Hh r j l' Hnd); [|done]. rewrite pend_cons. intros [[-> ->]|?]; [|done].
           apply cmpb_iff in Hc. by destruct Hnd as (_ & _ & ?).
        -- apply (LG_skip (S k) i ri (c_p c) p' L L'); [done|apply HLI|]. intros r j Hnd Hr.
           assert (r <> k) by (intros ->; apply Hr, elem_of_app; right; apply belowp_elem; split; [lia|done]).
           unfold hvL. rewrite Hdiff by (intros [? _]; done). destruct (L r j) as [l'|] eqn:Hl'; [|done]. apply Hv.
           assert (Hj : inT T r j) by (apply trees_under, (srow_node n ts), srow_elem; by right).
           by destruct (rp_dom _ _ _ _ HR _ _ _ Hj Hl') as (_ & ? & _).
      * cbn [Nat.pred nextl]. rewrite filter_cons_True by done. change (kids (i :: filter _ [])) with ([2 * i; 2 * i + 1]).
        assert (Esz : length t1 = length cs) by (rewrite Et1, insert_length; symmetry; apply (ti_len _ _ _ _ _ _ _ _ HT)).
        unfold size. rewrite Esz. repeat constructor.
        -- rewrite Nat2N.id, lookup_app_r by lia. by rewrite Nat.sub_diag.
        -- replace (N.to_nat (N.of_nat (length cs) + 1)) with (S (length cs)) by lia. rewrite lookup_app_r by lia.
           by replace (S (length cs) - length cs)%nat with 1%nat by lia.
  - rewrite (bool_decide_false (false = true)), (bool_decide_true (false = false)) by done. cbn [negb andb orb assert_ bind].
    rewrite (vec_set_eq _ _ _ _ Hw). cbn [bind]. rewrite (tl_row _ false) by done. cbn [tl].
    assert (Hnd : needed n ts (N.of_nat k) i).
    { apply srow_elem in His as [His|?]; [|done]. apply cmpb_iff in His. congruence. }
    assert (Hfront : forall f, f = (if (k =? 0)%nat then [x] else []) -> ids cs (pred k) f (nextl k [i])).
    { intros f ->. destruct k as [|k]; cbn [Nat.eqb nextl Nat.pred]; [repeat constructor; done|]. rewrite filter_cons_False by congruence. constructor. }
    assert (Hhs : hon -> takes (sto (k, i) :: (sto <$> rest k ri)) (c_hashes c) (g k i :: (gx <$> rest k ri)) []).
    { intros Hh. pose proof (li_hs _ _ _ _ _ _ _ HLI Hh) as Ht. rewrite (rest_tl _ _ _ Hc) in Ht. exact Ht. }
    rewrite W4 in HT1 |- *. destruct (L0 k i) as [l0|] eqn:EL0; cbn [pres1].
    + pose proof (hi_sub _ _ _ _ HH _ _ _ EL0) as El. rewrite Hl in El. apply (inj Some) in El as ->.
      destruct (rep_get _ _ _ _ (hi_rep _ _ _ _ HH) _ _ _ Hin Hl) as [nd End]. rewrite W1, Hl, (deref_ok _ _ _ End). cbn [bind snd].
      assert (Hhv : i_hash nd = g k i).
      { rewrite <- (hi_old _ _ _ _ HH _ _ _ Hin EL0). unfold hv. by rewrite End. }
      rewrite (sto_some _ _ _ EL0) in Hhs.
      assert (HLok : forall hs, (hon -> takes (sto <$> rest k ri) hs (gx <$> rest k ri) []) -> LG k ri (c_p c) L hs ->
         LI k ri (c_p c) L ((enc R (N.of_nat k) <$> filter (λ i, cmp k i = true) (i :: ri)) ++ below n (crow n ts) k)
           ((enc R (N.of_nat k) <$> filter (λ i, cmp k i = false) ri) ++ below n (nrow n ts) k) hs).
      { intros hs Hhs' HG'. split; try done.
        - rewrite skip_row by congruence. done.
        - intros Hh r j l' Hnj Hp Hl'. destruct (decide (r = k /\ j = i)) as [[-> ->]|Hne].
          + rewrite Hl in Hl'. apply (inj Some) in Hl' as <-. by apply (hi_old _ _ _ _ HH).
          + apply (li_ok _ _ _ _ _ _ _ HLI Hh r j l' Hnj); [|done]. rewrite pend_cons. tauto. }
      rewrite Hhv. destruct (N.eqb_spec (g k i) (match c_hashes c with [] => zero_hash | h :: _ => h end)) as [Eh|Eh].
      * destruct (c_hashes c) as [|h hs] eqn:Ehs.
        -- cbn [wp]. split; [intros Hh; specialize (Hhs Hh); apply takes_stop in Hhs as [_ Hz]; apply Hz; by rewrite Eh|].
           split; [exists k, i; split; [done|]; split; [by rewrite EL0|done]|].
           pose proof (li_g _ _ _ _ _ _ _ HLI) as HG. try rewrite Ehs in HG. apply LG_halt in HG; [|done]. rewrite (sto_some _ _ _ EL0), Eh in HG. exact HG.
        -- cbn [wp fst snd]. exists cs, L. split; [done|]. split; [split; cbn [c_p c_t c_rec c_computed c_proofpos c_hashes]|by apply Hfront].
           ++ done.
           ++ apply HI_skip with i; [by right|done].
           ++ done.
           ++ apply HLok; [intros Hh; specialize (Hhs Hh); inversion Hhs; subst; [done|by cbn [hd] in *]|]. pose proof (li_g _ _ _ _ _ _ _ HLI) as HG. try rewrite Ehs in HG.
              apply (LG_use k i ri (c_p c) (c_p c) L (g k i) (h :: hs)); try done; [rewrite (hvL_some _ _ _ _ _ Hl); unfold hv; by rewrite End|].
              rewrite (sto_some _ _ _ EL0), Eh. apply takes_same. constructor.
      * cbn [wp fst snd]. exists cs, L. split; [done|]. split; [split; cbn [c_p c_t c_rec c_computed c_proofpos c_hashes]|by apply Hfront].
        -- done.
        -- apply HI_skip with i; [by right|done].
        -- done.
        -- assert (Ehd : hd 0 (c_hashes c) <> g k i) by (intros E; apply Eh; rewrite <- E; by destruct (c_hashes c)).
           apply HLok; [intros Hh; specialize (Hhs Hh); inversion Hhs; subst; [match goal with E : _ = c_hashes c |- _ => rewrite <- E in Ehd end; by cbn [hd] in Ehd|done]|].
           apply (LG_use k i ri (c_p c) (c_p c) L (g k i) (c_hashes c)); try done; [apply HLI|rewrite (hvL_some _ _ _ _ _ Hl); unfold hv; by rewrite End|].
           rewrite (sto_some _ _ _ EL0). apply takes_skip; [done|constructor].
    + rewrite (sto_none _ _ EL0) in Hhs. destruct (c_hashes c) as [|h hs] eqn:Ehs.
      * assert (Hnh : ~ hon) by (intros Hh; specialize (Hhs Hh); by apply takes_stop in Hhs as [? _]).
        pose proof (li_g _ _ _ _ _ _ _ HLI) as HG. try rewrite Ehs in HG. pose proof (LG_halt _ _ _ _ _ Hc HG) as Hst. rewrite (sto_none _ _ EL0) in Hst.
        cbn [wp fst snd]. exists cs, L. split; [done|]. split; [|done].
        split; [|split]; cbn [c_p c_t c_rec c_computed c_proofpos c_hashes]; [done|apply HI_skip with i; [by right|done]|done].
      * destruct (rep_get _ _ _ _ (hi_rep _ _ _ _ HH) _ _ _ Hin Hl) as [nd End]. rewrite W1, Hl, (deref_ok _ _ _ End). cbn [bind snd fst wp].
        exists cs, L. split; [done|].
        assert (Hne : forall r j l', inT T r j -> L r j = Some l' -> (r = k /\ j = i -> False) -> l' <> l).
        { intros r j l' Hj Hl' Hne ->. apply Hne. by apply (rp_inj _ _ _ _ (hi_rep _ _ _ _ HH) _ _ _ _ _ Hj Hin Hl' Hl). }
        split; [|by apply Hfront]. split; cbn [c_p c_t c_rec c_computed c_proofpos c_hashes].
        -- done.
        -- apply HI_skip with i; [by right|]. split; try apply HH.
           ++ apply rep_heap; [apply HH|..].
              ** intros o b. rewrite nc_insert. destruct (decide (o = Some l)) as [->|]; [|done]. by rewrite niece_set_hash, (nc_some _ _ _ _ End).
              ** intros l'. apply is_Some_insert. by rewrite End.
           ++ intros r j l' Hj Ej. cbn [p_heap p_set_heap]. rewrite hv_insert. rewrite decide_False; [by apply (hi_old _ _ _ _ HH)|].
              apply (Hne r j); [done|by apply (hi_sub _ _ _ _ HH)|]. intros [-> ->]. congruence.
        -- done.
        -- split; try done.
           ++ rewrite skip_row by congruence. done.
           ++ intros Hh. specialize (Hhs Hh). by inversion Hhs.
           ++ intros Hh r j l' Hnj Hp Hl'. cbn [p_heap p_set_heap]. rewrite hv_insert. specialize (Hhs Hh). assert (h = g k i) as -> by (by inversion Hhs).
              destruct (decide (r = k /\ j = i)) as [[-> ->]|Hn2].
              ** rewrite Hl in Hl'. apply (inj Some) in Hl' as <-. by rewrite decide_True.
              ** assert (Hj : inT T r j). { apply trees_under. apply (srow_node n ts). apply srow_elem. by right. }
                 rewrite decide_False by (by apply (Hne r j)). apply (li_ok _ _ _ _ _ _ _ HLI Hh r j l' Hnj); [|done]. rewrite pend_cons. tauto.
           ++ pose proof (li_g _ _ _ _ _ _ _ HLI) as HG. try rewrite Ehs in HG. apply (LG_use k i ri (c_p c) _ L h (h :: hs)); try done.
              ** rewrite (hvL_some _ _ _ _ _ Hl). cbn [p_heap p_set_heap]. rewrite hv_insert. by rewrite decide_True.
              ** rewrite (sto_none _ _ EL0). constructor. constructor.
              ** intros r j Hnj Hn2. unfold hvL. destruct (L r j) as [l'|] eqn:Hl'; [|done]. cbn [p_heap p_set_heap]. rewrite hv_insert. rewrite decide_False; [done|].
                 apply (Hne r j); try done. apply trees_under, (srow_node n ts), srow_elem. by right.
Qed.

Lemma create_row_ok k is : forall c cs L xs next dn, CI k is c cs L -> (forall j, j ∈ is -> j ∈ srow n ts k) -> NoDup is -> ids cs k xs is -> ids cs (pred k) next dn ->
  wp Z (create_row n c xs next) (λ o, exists cs' L' ri', cs `prefix_of` cs' /\
    match o.2 with None => CW k ri' o.1 cs' L' /\ ~ hon /\ halt None | Some nx => CI k ri' o.1 cs' L' /\ ri' = [] /\ ids cs' (pred k) nx (nextl k (rev is) ++ dn) end).
Proof.
  induction is as [|i is IH]; intros c cs L xs next dn HC Hin Hnd Hxs Hnx.
  - apply Forall2_nil_inv_r in Hxs as ->. cbn [create_row wp fst snd]. exists cs, L, []. split; [done|]. split; [done|]. split; [done|]. by destruct k.
  - apply Forall2_cons_inv_r in Hxs as (x & xs' & Hx & Hxs & ->). cbn [create_row]. apply NoDup_cons in Hnd as [Hi Hnd].
    apply wp_bind. eapply wp_mono; [by apply (create_node_ok k i is c cs L x)|]. intros [c1 o1] (cs1 & L1 & Hp1 & Ho). cbn [fst snd] in *.
    destruct o1 as [front|].
    + destruct Ho as [HC1 Ho]. eapply wp_mono; [apply (IH c1 cs1 L1 xs' (front ++ next) (nextl k [i] ++ dn)); try done|].
      * intros j Hj. apply Hin. by right.
      * by eapply ids_mono.
      * apply Forall2_app; [done|by eapply ids_mono].
      * intros o (cs2 & L2 & ri2 & Hp2 & Ho2). exists cs2, L2, ri2. split; [by etransitivity|]. destruct (o.2); [|done].
        destruct Ho2 as (HC2 & H1 & H2). split; [done|]. split; [done|]. cbn [rev]. rewrite nextl_app, <- app_assoc. done.
    + cbn [wp fst snd]. exists cs1, L1, is. done.
Qed.

Lemma cmp_up r i : cmp r i = true -> i ∈ srow n ts r.
Proof. intros Hc. apply srow_elem. left. by apply cmpb_iff. Qed.
Lemma filter_rev (P : N -> Prop) `{forall x, Decision (P x)} (l : list N) : filter P (rev l) = rev (filter P l).
Proof.
  induction l as [|x l IH]; [done|]. cbn [rev]. rewrite filter_app, IH, !filter_cons, filter_nil. destruct (decide (P x)); [done|]. by rewrite app_nil_r.
Qed.
Lemma start_rest k : rest (S k) [] = rest k (rev (srow n ts k)).
Proof. clear. unfold rest. rewrite filter_rev. done. Qed.
Lemma start_row k c cs L t' : CI (S k) [] c cs L -> TI n ts L0 k (rev (srow n ts k)) t' cs L ->
  CI k (rev (srow n ts k)) (CState (c_p c) t' (c_rec c) (c_computed c) (c_proofpos c) (c_hashes c)) cs L.
Proof.
  intros [_ HH HRI HLI] HT. assert (Hrev : forall j, j ∈ rev (srow n ts k) <-> j ∈ srow n ts k).
  { intros j. by rewrite !elem_of_list_In, <- in_rev. }
  split; cbn [c_p c_t c_rec c_computed c_proofpos c_hashes]; [done| |done|].
  - split; try apply HH.
    + intros r i. destruct (hi_diff _ _ _ _ HH r i) as [?|[H1 H2]]; [by left|right]. split; [done|]. intros Hp. apply H2. left.
      destruct Hp as [?|[? _]]; lia.
    + intros r i H1 H2. apply (hi_new _ _ _ _ HH); [done|]. intros [Hp|[_ ?%elem_of_nil]]; [|done]. apply H2.
      destruct (decide (S r = k)) as [<-|]; [|left; lia]. right. split; [done|]. apply Hrev. by apply cmp_up.
  - split.
    + rewrite (li_comp _ _ _ _ _ _ _ HLI), filter_rev, srow_comp. done.
    + rewrite (li_pp _ _ _ _ _ _ _ HLI), filter_rev. done.
    + intros Hh. pose proof (li_hs _ _ _ _ _ _ _ HLI Hh) as Ht. rewrite start_rest in Ht. exact Ht.
    + intros Hh r i l Hnd Hp. apply (li_ok _ _ _ _ _ _ _ HLI Hh r i l Hnd). intros [Hr|[_ ?%elem_of_nil]]; [|done]. apply Hp.
      destruct (decide (r = k)) as [->|]; [|left; lia]. right. split; [done|]. apply Hrev, srow_elem. by right.
    + destruct (li_g _ _ _ _ _ _ _ HLI) as (vs & Hvs & E). exists vs. split; [|done]. by rewrite <- Hvs, start_rest.
Qed.
Definition inrow (k : nat) : list N := match k with O => srow n ts 0 | S _ => kids (crow n ts k) end.
Lemma ids_rev cs r xs is : ids cs r xs is -> ids cs r (rev xs) (rev is).
Proof. intros Hx. by apply Forall2_reverse in Hx; rewrite <- !rev_alt in Hx || (unfold reverse in Hx; rewrite <- !rev_alt in Hx). Qed.
Lemma below_head_crow k : below n (crow n ts) (S k) = (enc R (N.of_nat k) <$> rev (crow n ts k)) ++ below n (crow n ts) k.
Proof. done. Qed.

Lemma create_rows_ok k : forall c cs L xs, (k <= S (N.to_nat R))%nat -> CI k [] c cs L -> ids cs (pred k) xs (inrow k) ->
  wp Z (create_rows k n c xs) (λ o, exists cs' L' k' ri', 
    match o.2 with None => CW k' ri' o.1 cs' L' /\ ~ hon /\ halt None | Some xs' => CI k' ri' o.1 cs' L' /\ k' = O /\ ri' = [] /\ ids cs' 0 xs' (srow n ts 0) end).
Proof.
  induction k as [|k IH]; intros c cs L xs Hk HC Hxs.
  - cbn [create_rows wp fst snd]. exists cs, L, O, []. split; [done|]. split; [done|]. split; [done|]. exact Hxs.
  - cbn [create_rows Nat.pred inrow] in *. pose proof (ci_h _ _ _ _ _ HC) as HH. pose proof (ci_t _ _ _ _ _ HC) as HT. pose proof (ci_l _ _ _ _ _ HC) as HLI.
    assert (HR62 : R <= 62) by (by apply NumRows_le).
    assert (Hrev : forall j, j ∈ rev (srow n ts k) <-> j ∈ srow n ts k).
    { intros j. by rewrite !elem_of_list_In, <- in_rev. }
    apply wp_bind. apply (wp_mono _ _ (λ cr, exists t', cr.1 = CState (c_p c) t' (c_rec c) (c_computed c) (c_proofpos c) (c_hashes c) /\
       TI n ts L0 k (rev (srow n ts k)) t' cs L /\ ids cs k cr.2 (srow n ts k))).
    + destruct (rootl_cases n ts k) as [[Hrl Hnr]|(i & Hrl & Hir & Hic & Hlast)].
      * (* no computed root in this row *)
        assert (HTk : TI n ts L0 k (rev (srow n ts k)) (c_t c) cs L) by (apply TI_row with (c_t c); [done|done|left; done]).
        assert (Hsk : ids cs k xs (srow n ts k)) by (unfold srow; by rewrite Hrl, app_nil_r).
        assert (Hsame : exists t', c = CState (c_p c) t' (c_rec c) (c_computed c) (c_proofpos c) (c_hashes c) /\ TI n ts L0 k (rev (srow n ts k)) t' cs L /\ ids cs k xs (srow n ts k)).
        { exists (c_t c). split; [by destruct c|done]. }
        destruct (c_computed c) as [|cp cl] eqn:Ec; [exact Hsame|].
        rewrite HasRoot_ok by lia. cbn [bind]. destruct (N.testbit n (N.of_nat k)) eqn:Eb; [|exact Hsame].
        rewrite RootPosition_ok by (done || lia). cbn [bind]. destruct (N.eqb_spec cp (enc R (N.of_nat k) (2 * (n / 2 ^ (N.of_nat k + 1))))) as [E|E];
          [|exact Hsame].
        exfalso. assert (Hcp : cp ∈ cp :: cl) by left.
        rewrite (li_comp _ _ _ _ _ _ _ HLI) in Hcp. cbn [filter list_filter fmap list_fmap app] in Hcp. apply below_elem in Hcp as (r & j & Hr & Hj & E2).
        assert (Hrt : (N.of_nat k, 2 * (n / 2 ^ (N.of_nat k + 1))) ∈ T) by (by apply trees_elem, is_root_iff).
        rewrite E in E2. apply enc_inj in E2 as [E2 E3]; [|apply node_slot; apply trees_elem in Hrt; apply Hrt|apply node_slot; by apply (crow_node n ts)].
        apply Nat2N.inj in E2 as <-. rewrite <- E3 in Hj. by apply (Hnr _ Hj).
      * assert (Hroot := Hir). apply trees_elem, is_root_iff in Hir as [Eb Ei].
        assert (Ecp : exists cl, c_computed c = enc R (N.of_nat k) i :: cl).
        { rewrite (li_comp _ _ _ _ _ _ _ HLI). cbn [filter list_filter fmap list_fmap app]. rewrite below_head_crow.
          rewrite (last_removelast _ _ Hlast), rev_app_distr. cbn [rev app fmap list_fmap]. eauto. }
        destruct Ecp as [cl Ecp]. rewrite Ecp. rewrite HasRoot_ok by lia. cbn [bind]. rewrite Eb. rewrite RootPosition_ok by (done || lia). cbn [bind].
        rewrite <- Ei, N.eqb_refl. assert (Hnode : node n (N.of_nat k) i) by (by apply (crow_node n ts)).
        destruct (C20_path_lem n R T (N.of_nat k) i Hn ltac:(by apply NumRows_height) (forest_root_rows n) Hnode) as (j & tr & kk & bits & _ & Eidx & Hr & Hj & Hkk & _).
        rewrite Eidx. cbn [bind].
        assert (HjT : T !! j = Some (N.of_nat k, i)).
        { rewrite Hj. f_equal. apply (trees_disj n (tr, kk) (N.of_nat k, i) k i); [by eapply elem_of_list_lookup_2|done|split; done|apply under_root]. }
        clear Hj Hkk Hr bits kk tr.
        assert (Hcj : cs !! j = Some (k, i)).
        { assert (Ht : tcs n !! j = Some (k, i)) by (unfold tcs; rewrite list_lookup_fmap, HjT; cbn; by rewrite Nat2N.id).
          rewrite <- (ti_roots _ _ _ _ _ _ _ _ HT) in Ht. apply lookup_take_Some in Ht. by destruct Ht. }
        assert (Hlen : length (p_roots (c_p c)) = length T).
        { pose proof (f_equal length (rp_roots _ _ _ _ (hi_rep _ _ _ _ HH))) as E. by rewrite !fmap_length in E. }
        unfold vec_at. rewrite Nat2N.id. destruct (lookup_lt_is_Some_2 (p_roots (c_p c)) j) as [pr Epr].
        { rewrite Hlen. by eapply lookup_lt_Some. }
        rewrite Epr. cbn [bind]. destruct (ti_w _ _ _ _ _ _ _ _ HT _ _ _ Hcj) as (w & Hw & _).
        rewrite (vec_get_eq _ _ w) by (by rewrite Nat2N.id). cbn [bind].
        rewrite (vec_set_eq _ _ w) by (by rewrite Nat2N.id). cbn [bind wp fst snd].
        rewrite Nat2N.id. eexists. split; [by rewrite <- Ecp|]. split.
        -- apply TI_row with (c_t c); [done|done|]. right. exists j, i, w. split; [done|]. split; [done|]. split; [done|]. split; [done|]. split.
           ++ destruct (rp_root _ _ _ _ (hi_rep _ _ _ _ HH) k i Hroot) as [l Hl]. destruct (hi_diff _ _ _ _ HH k i) as [<-|[Hc _]]; [by rewrite Hl|].
              exfalso. apply (kid_not_root T k i (trees_disj n)); [|done]. apply trees_under. apply cmpb_iff in Hc. apply Hc.
           ++ intros j' Hj' Hne Hrj'. apply Hne. pose proof (root_max n k i j' Hroot (crow_node n ts _ _ Hj')).
              pose proof (root_max n k j' i Hrj' Hnode). lia.
        -- unfold srow. rewrite Hrl. apply Forall2_app; [done|]. repeat constructor. by rewrite Nat2N.id.
    + intros [c1 xs1] (t' & E & HTk & Hids). cbn [fst snd] in *. subst c1. apply wp_bind.
      eapply wp_mono; [apply (create_row_ok k (rev (srow n ts k)) _ cs L (rev xs1) [] [])|].
      * by apply start_row.
      * intros j. apply Hrev.
      * rewrite <- (Permutation_rev (srow n ts k)). apply sorted_lt_NoDup, srow_sorted.
      * by apply ids_rev.
      * constructor.
      * intros o (cs1 & L1 & ri1 & Hp1 & Ho). destruct (o.2) as [nx|] eqn:Eo.
        -- destruct Ho as (HC1 & -> & Ho). rewrite rev_involutive, app_nil_r in Ho. apply (IH _ cs1 L1); [lia|done|].
           destruct k as [|k]; cbn [nextl Nat.pred inrow] in *; [done|]. by rewrite srow_comp in Ho.
        -- cbn [wp fst snd]. exists cs1, L1, k, ri1. done.
Qed.

Context (Hts : valid_targets n ts) (Hpn : p_n p0 = n) (HR0 : rep p0 T L0 M0) (Hag : agree p0 T L0 g).
Lemma CreateProofTree_ok bp : m_sorted_targets bp = ts -> m_proof bp = prf ->
  wp Z (P_CreateProofTree p0 bp) (λ '(p, t, rec, xs, ok), exists cs L k ri, TI n ts L0 k ri t cs L /\ HI k ri p L /\ RI rec cs L /\
    (spent -> ok = true) /\ ~ halt (Some zero_hash) /\
    (ok = true -> k = O /\ ri = [] /\ ids cs 0 xs (srow n ts 0) /\
       (hon -> forall r i l, needed n ts (N.of_nat r) i -> L r i = Some l -> hv (p_heap p) l = g r i) /\
       takes (sto <$> belowp (S (N.to_nat R))) (rev prf) ((λ x : nat * N, hvL (p_heap p) L x.1 x.2) <$> belowp (S (N.to_nat R))) [])).
Proof.
  intros Ets Eprf. unfold P_CreateProofTree. rewrite Hpn, Ets, Eprf.
  destruct (ProofPositions_ok n Hn ts Hts) as (P & C & E & HP & HC). rewrite E. cbn [bind fst snd].
  rewrite (below_lists n Hn (crow n ts) (computed n ts) C), (below_lists n Hn (nrow n ts) (needed n ts) P); [|try done..].
  2: { apply nrow_sorted. } 2: { apply nrow_elem. } 2: { intros r i Hi%nrow_elem. apply node_slot, (srow_node n ts), srow_elem. by right. }
  2: { apply crow_sorted. } 2: { apply crow_elem. } 2: { intros r i Hi. by apply node_slot, (crow_node n ts). }
  apply wp_bind.
  assert (Hrootof : forall x r i, tcs n !! x = Some (r, i) -> T !! x = Some (N.of_nat r, i)).
  { intros x r i Hx. unfold tcs in Hx. rewrite list_lookup_fmap in Hx. destruct (T !! x) as [[a b]|]; [|done]. cbn in Hx. injection Hx as <- <-. by rewrite N2Nat.id. }
  assert (Hnp : forall r i, node n (N.of_nat r) i -> pend (S (N.to_nat R)) [] r i).
  { intros r i Hi%node_slot. left. destruct Hi. lia. }
  eapply wp_mono; [eapply (create_rows_ok _ _ (tcs n) L0)|].
  - done.
  - split; cbn [c_p c_t c_rec c_computed c_proofpos c_hashes].
    + assert (Elen : length (p_roots p0) = length T).
      { pose proof (f_equal length (rp_roots _ _ _ _ HR0)) as El. by rewrite !fmap_length in El. }
      split.
      * unfold tcs. rewrite !fmap_length. done.
      * apply take_ge. unfold tcs. by rewrite fmap_length.
      * apply NoDup_alt. intros x y [r i] Hx Hy. apply Hrootof in Hx, Hy. by apply (NoDup_lookup T x y (N.of_nat r, i) (trees_nodup n)).
      * intros r j Hj%tcs_elem. by left.
      * intros x r i Hx%Hrootof. assert (Hin : (N.of_nat r, i) ∈ T) by (by eapply elem_of_list_lookup_2).
        destruct (lookup_lt_is_Some_2 (p_roots p0) x) as [pr Epr]; [rewrite Elen; by eapply lookup_lt_Some|].
        exists (root_wrapper pr). split; [by rewrite list_lookup_fmap, Epr|].
        assert (Enode : pr_node pr = L0 r i).
        { pose proof (f_equal (.!! x) (rp_roots _ _ _ _ HR0)) as El. cbn beta in El. rewrite !list_lookup_fmap, Epr, Hx in El.
          cbn in El. rewrite Nat2N.id in El. by apply (inj Some) in El. }
        split; cbn [root_wrapper w_node w_sib w_parent w_pos w_flag]; try done.
        -- by rewrite hp_root.
        -- intros [?|[Hr Hc]]; [done|]. exfalso. apply cmpb_iff in Hc. destruct Hc as [Hc%node_slot _]. destruct Hc. lia.
    + split; try done; [by left|]. intros r i Hc Hp. exfalso. apply Hp, Hnp. apply cmpb_iff in Hc. apply Hc.
    + split; [by intros x ch ?%elem_of_nil|]. intros r y E1 [? E2]. congruence.
    + split; try done; [intros Hh r i l Hnd Hp; exfalso; apply Hp, Hnp, (srow_node n ts), srow_elem; by right|].
      exists []. split; [done|constructor].
  - cbn [inrow]. rewrite crow_top by lia. constructor.
  - intros [c o] (cs & L & k & ri & Ho). cbn [fst snd] in *. destruct o as [xs|]; cbn [wp].
    + destruct Ho as ([HT HH HRI HLI] & -> & -> & Hxs). destruct (li_g _ _ _ _ _ _ _ HLI) as (vs & Hvs & Ht).
      unfold rest in Hvs. cbn [filter list_filter fmap list_fmap app] in Hvs. change (belowp 0) with (@nil (nat * N)) in Hvs. rewrite app_nil_r in Hvs. subst vs.
      exists cs, L, O, []. split_and!; try done.
      * intros [out Hx]. destruct (takes_det _ _ _ _ _ _ Ht Hx) as [_ ->]. done.
      * intros Hx. eapply halts_takes; [|exact Hx|exact Ht]. by right.
      * intros Hok. split; [done|]. split; [done|]. split; [done|]. split.
        -- intros Hh r i l Hnd. apply (li_ok _ _ _ _ _ _ _ HLI Hh); [done|]. intros [?|[_ ?%elem_of_nil]]; [lia|done].
        -- by destruct (c_hashes c).
    + destruct Ho as ((HT & HH & HRI) & Hnh & Hst). exists cs, L, k, ri. split_and!; try done.
      { intros [out Hx]. exfalso. eapply halts_takes; [by left|exact Hst|exact Hx]. }
      intros Hx. assert (E' : None = Some zero_hash); [|done]. eapply halts_inj; [by left|by right|exact Hst|exact Hx].
Qed.
End Create.
