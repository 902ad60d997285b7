(** * PollardVerify: walking up the proof tree (proofs) *)
From stdpp Require Import sorting.
From Verif Require Import Base StateModel CodecModel ForestModel PollardModel PosSpec PosFacts PathFacts MerkleSpec CodecSpec CodecFacts TargetFacts ForestFacts
  RowFacts TransformFacts RemoveFacts ForestInv ForestSpec ProofSpec TakeFacts ProveFacts PollardRep PollardOps PollardAdd PollardRemove PollardRows PollardInit PollardCreate.
From Coq Require Import ZifyBool ZifyNat ZifyN.
Ltac Zify.zify_post_hook ::= idtac.
Ltac dlia := zify; Z.div_mod_to_equations; lia.


(** What is left to visit on the way up. *)
Definition vpend (k : nat) (ri : list N) (r : nat) (i : N) : Prop := (k < r)%nat \/ (r = k /\ i ∈ ri).
Lemma vpend_cons k i ri r j : vpend k (i :: ri) r j <-> (r = k /\ j = i) \/ vpend k ri r j.
Proof. unfold vpend. rewrite elem_of_cons. tauto. Qed.

(** The table with more wrappers marked as valid. *)
Definition orv (w : wnode) (b : bool) : wnode :=
  set_w_flag w (VFlag (v_valid (w_flag w) || b) (v_target (w_flag w)) (v_cached (w_flag w)) (v_sibcached (w_flag w))).
Definition tabrel (t t' : list wnode) (Q : nat -> Prop) : Prop :=
  length t' = length t /\ forall x w, t !! x = Some w -> exists b, t' !! x = Some (orv w b) /\ (b = true -> Q x).
Lemma orv_false w : orv w false = w.
Proof. destruct w as [a b c d [v1 v2 v3 v4]]. unfold orv, set_w_flag. cbn. by rewrite orb_false_r. Qed.
Lemma orv_orv w a b : orv (orv w a) b = orv w (a || b).
Proof. destruct w as [x1 x2 c d [v1 v2 v3 v4]]. unfold orv, set_w_flag. cbn. by rewrite orb_assoc. Qed.
Lemma tabrel_refl t (Q : nat -> Prop) : tabrel t t Q.
Proof. split; [done|]. intros x w Hx. exists false. by rewrite orv_false. Qed.
Lemma tabrel_trans t t' t'' Q : tabrel t t' Q -> tabrel t' t'' Q -> tabrel t t'' Q.
Proof.
  intros [E1 H1] [E2 H2]. split; [congruence|]. intros x w Hx. destruct (H1 x w Hx) as (b & Hb & Qb). destruct (H2 x _ Hb) as (c & Hc & Qc).
  rewrite orv_orv in Hc. exists (b || c). split; [done|]. destruct b; [by auto|]. done.
Qed.
Lemma tabrel_mono t t' (Q Q' : nat -> Prop) : (forall x, Q x -> Q' x) -> tabrel t t' Q -> tabrel t t' Q'.
Proof. intros HQ [E H1]. split; [done|]. intros x w Hx. destruct (H1 x w Hx) as (b & Hb & Qb). exists b. auto. Qed.
Lemma mark_valid_ok (t : list wnode) y w : t !! N.to_nat y = Some w -> exists (t' : list wnode), mark_valid t y = Ok t' /\ tabrel t t' (λ x, x = N.to_nat y).
Proof.
  intros Hw. unfold mark_valid. rewrite (vec_get_eq _ _ _ Hw). cbn [bind]. rewrite (vec_set_eq _ _ _ _ Hw). eexists. split; [done|]. split; [by rewrite insert_length|].
  intros x w' Hx. destruct (decide (x = N.to_nat y)) as [->|Hne].
  - rewrite Hw in Hx. apply (inj Some) in Hx as ->. exists true. split; [|done]. rewrite list_lookup_insert by (by eapply lookup_lt_Some).
    unfold orv. by rewrite orb_true_r.
  - exists false. rewrite orv_false. split; [|done]. by rewrite list_lookup_insert_ne.
Qed.

(** ** Remembering a leaf *)
Lemma rep_remember p T L M i s nd : rep p T L M -> inT T 0 i -> L 0%nat (hp T 0 i) = Some s -> p_heap p !! s = Some nd ->
  rep (p_set_heap p (<[s := set_niece nd false (Some rem)]> (p_heap p))) T L (λ j, M j || (j =? i)).
Proof.
  intros HR Hi Hs End. pose proof (rp_disj _ _ _ _ HR) as Hd. pose proof (inT_hp _ _ _ Hd Hi) as Hpi.
  assert (Hnc : forall r j b, inT T r j -> (r = O /\ j = hp T 0 i /\ b = false -> False) ->
     nc (<[s := set_niece nd false (Some rem)]> (p_heap p)) (L r j) b = nc (p_heap p) (L r j) b).
  { intros r j b Hj Hne. rewrite nc_insert. destruct (decide (L r j = Some s)) as [E|]; [|done]. destruct (rp_inj _ _ _ _ HR _ _ _ _ _ Hj Hpi E Hs) as [-> ->].
    rewrite E, (nc_some _ _ _ _ End). destruct b; [done|]. exfalso. by apply Hne. }
  split; cbn [p_set_heap p_heap p_roots p_next]; try apply HR.
  - intros r j l H1 H2. destruct (rp_dom _ _ _ _ HR r j l H1 H2) as (? & ? & ?). split_and!; [done..|]. apply is_Some_insert; [by rewrite End|done].
  - intros r x Hx. rewrite Hnc; [by apply (rp_kid _ _ _ _ HR)|by apply inT_hp|intros [? _]; done].
  - intros j Hj. destruct (decide (j = i)) as [->|Hne].
    + rewrite Hs, nc_insert, decide_True by done. rewrite N.eqb_refl, orb_true_r. done.
    + rewrite Hnc; [|by apply inT_hp|].
      * rewrite (proj2 (N.eqb_neq j i)) by done. rewrite orb_false_r. by apply (rp_leaf _ _ _ _ HR).
      * intros (_ & E & _). by apply hp_inj in E.
  - intros j Hj. rewrite Hnc; [by apply (rp_leaf' _ _ _ _ HR)|by apply inT_hp|intros (_ & _ & ?); done].
Qed.

Section Verify.
Context (H : hash -> hash -> hash) (n : N) (Hn : n <= 2 ^ 62) (ts : list N) (Hts : valid_targets n ts).
Context (p0 : pollard) (L0 : lmap) (M0 : N -> bool) (g : nat -> N -> hash) (prf ths0 : list hash).
Context (HR0 : rep p0 (trees n) L0 M0).
Context (Hg : forall r d, node n (N.of_nat (S r)) d -> g (S r) d = H (g r (2 * d)) (g r (2 * d + 1))).
Notation R := (NumRows n).
Notation T := (trees n).
Notation cmp := (cmpb n ts).
Context (cs : list (nat * N)) (L : lmap).
Context (Hnd : NoDup cs) (Hcs : forall r j, (r, j) ∈ cs -> (N.of_nat r, j) ∈ T \/ cmp (S r) (j / 2) = true).
Context (Hsub : forall r i l, L0 r i = Some l -> L r i = Some l) (Hnew : forall r i, cmp (S r) (i / 2) = true -> is_Some (L r i)).
Let hon' : Prop := hon n ts L0 g prf /\ ths0 = g 0%nat <$> ts.

(** The leaves marked by a walk that stops: those before the first target whose
    stored hash differs from the given one. *)
Definition final (M : N -> bool) : Prop := exists dl rest, ts = dl ++ rest /\ (forall i, M i = M0 i || bool_decide (i ∈ dl)) /\
  (forall x t th, dl !! x = Some t -> ths0 !! x = Some th -> is_Some (L0 0%nat t) -> g 0%nat t = th) /\
  match rest with [] => True | t :: _ => forall th, ths0 !! length dl = Some th -> is_Some (L0 0%nat t) /\ g 0%nat t <> th end.

Record vspec (w : wnode) (r : nat) (i : N) : Prop := {
  vs_node : w_node w = L r i;
  vs_sib : w_sib w = L r (hp T r i);
  vs_par : match w_parent w with None => (N.of_nat r, i) ∈ T | Some y => (N.of_nat r, i) ∉ T /\ cs !! N.to_nat y = Some (S r, i / 2) end;
  vs_act : (N.of_nat r, i) ∉ T \/ cmp r i = true ->
     w_pos w = enc R (N.of_nat r) i /\ v_cached (w_flag w) = pres1 (L0 r i) /\ v_sibcached (w_flag w) = pres1 (L0 r (hp T r i)) /\
     v_target (w_flag w) = cmp r i }.
(** What failure needs. *)
Record WI (p : pollard) (t : list wnode) (M : N -> bool) : Prop := {
  wi_n : p_n p = n;
  wi_pm : p_posmap p = p_posmap p0;
  wi_roots : p_roots p = p_roots p0;
  wi_rep : rep p T L M;
  wi_M : forall i, M0 i = true -> M i = true;
  wi_M' : forall i, M i = true -> M0 i = true \/ i ∈ ts;
  wi_old : agree p T L0 g;
  wi_len : length t = length cs;
  wi_w : forall x r i, cs !! x = Some (r, i) -> exists w, t !! x = Some w /\ vspec w r i }.
Record VI (k : nat) (ri : list N) (p : pollard) (t : list wnode) (ths : list hash) (M : N -> bool) : Prop := {
  vi_w : WI p t M;
  vi_valid : forall x r d w, cs !! x = Some (r, d) -> t !! x = Some w -> cmp r d = true -> v_valid (w_flag w) = true ->
     exists r' c, r = S r' /\ c / 2 = d /\ ~ vpend k ri r' c /\ is_Some (L0 r' (sib c)) /\ hvL (p_heap p) L r' c = g r' c;
  vi_inner : forall r d, cmp (S r) d = true -> ~ vpend k ri (S r) d -> hvL (p_heap p) L (S r) d = H (hvL (p_heap p) L r (2 * d)) (hvL (p_heap p) L r (2 * d + 1));
  vi_leaf : exists dl, crow n ts 0 = dl ++ match k with O => filter (λ i, cmp 0 i = true) ri | S _ => [] end /\
     ths0 = (hvL (p_heap p) L 0 <$> dl) ++ ths /\ forall i, M i = M0 i || bool_decide (i ∈ dl);
  vi_need : hon n ts L0 g prf -> forall r i, needed n ts (N.of_nat r) i -> hvL (p_heap p) L r i = g r i;
  vi_g : takes (sto L0 g <$> belowp n ts (S (N.to_nat R))) (rev prf) ((λ x : nat * N, hvL (p_heap p) L x.1 x.2) <$> belowp n ts (S (N.to_nat R))) [] }.

Lemma vspec_orv w b r i : vspec w r i -> vspec (orv w b) r i.
Proof. by intros []. Qed.
Lemma WI_tab p t t' M Q : WI p t M -> tabrel t t' Q -> WI p t' M.
Proof.
  intros HW [E HT]. split; try apply HW; [by rewrite E; apply HW|]. intros x r i Hx. destruct (wi_w _ _ _ HW x r i Hx) as (w & Hw & Hs).
  destruct (HT x w Hw) as (b & Hb & _). eexists. split; [exact Hb|]. by apply vspec_orv.
Qed.
Lemma cmp_node r i : cmp r i = true -> node n (N.of_nat r) i.
Proof. intros Hc. apply cmpb_iff in Hc. apply Hc. Qed.
Lemma cmp_some r i p M : rep p T L M -> cmp r i = true -> is_Some (L r i) /\ is_Some (L r (hp T r i)).
Proof.
  intros HR Hc. pose proof (cmp_node _ _ Hc) as Hi. destruct (decide ((N.of_nat r, i) ∈ T)) as [Hr|Hr].
  - rewrite hp_root by done. split; by apply (rp_root _ _ _ _ HR).
  - assert (Hc' : cmp (S r) (i / 2) = true).
    { apply cmpb_iff, computed_up; [by apply cmpb_iff|]. by apply trees_up. }
    split; apply Hnew; by rewrite ?hp_half.
Qed.
Lemma kid_in r d : cmp (S r) d = true -> inT T r (2 * d) /\ inT T r (2 * d + 1) /\ is_Some (L r (2 * d)) /\ is_Some (L r (2 * d + 1)).
Proof.
  intros Hc. destruct (half_2 d) as [H1 H2]. pose proof (cmp_node _ _ Hc) as Hi. apply trees_under in Hi.
  split_and!; [apply inT_kid; by rewrite H1|apply inT_kid; by rewrite H2|apply Hnew; by rewrite H1|apply Hnew; by rewrite H2].
Qed.
Lemma old_hv p t M r i : WI p t M -> inT T r i -> is_Some (L0 r i) -> hvL (p_heap p) L r i = g r i.
Proof. intros HW Hi [l Hl]. rewrite (hvL_some _ _ _ _ _ (Hsub _ _ _ Hl)). by apply (wi_old _ _ _ HW). Qed.

(** One visited node. *)
Lemma VI_step k i ri p t ths M p' t' ths' M' : VI k (i :: ri) p t ths M -> cmp k i = true -> i ∉ ri -> WI p' t' M' ->
  (forall r j, inT T r j -> (r = k /\ j = i -> False) -> hvL (p_heap p') L r j = hvL (p_heap p) L r j) ->
  tabrel t t' (λ x, cs !! x = Some (S k, i / 2) /\ is_Some (L0 k (sib i)) /\ hvL (p_heap p') L k i = g k i) ->
  match k with
  | O => ths = hvL (p_heap p') L 0 i :: ths' /\ forall j, M' j = M j || (j =? i)
  | S k' => (ths' = ths /\ M' = M) /\ hvL (p_heap p') L (S k') i = H (hvL (p_heap p) L k' (2 * i)) (hvL (p_heap p) L k' (2 * i + 1))
  end ->
  VI k ri p' t' ths' M'.
Proof.
  intros HV Hc Hi HW' Hhv [_ HT] Hk. assert (Hin : forall r j, cmp r j = true -> inT T r j) by (intros r j Hj; by apply trees_under, cmp_node).
  split.
  - done.
  - intros x r d w Hx Hw Hcd Hv. destruct (wi_w _ _ _ (vi_w _ _ _ _ _ _ HV) x r d Hx) as (w0 & Hw0 & Hs0).
    destruct (HT x w0 Hw0) as (b & Hb & HQ). rewrite Hw in Hb. apply (inj Some) in Hb as ->. cbn [orv set_w_flag w_flag v_valid] in Hv.
    apply orb_true_iff in Hv as [Hv|Hv].
    + destruct (vi_valid _ _ _ _ _ _ HV x r d w0 Hx Hw0 Hcd Hv) as (r' & c & H1 & H2 & H3 & H4 & H5). exists r', c. split; [done|]. split; [done|].
      rewrite vpend_cons in H3. split; [tauto|]. split; [done|]. rewrite Hhv; [done| |tauto].
      apply inT_kid. rewrite H2, <- H1. by apply Hin.
    + destruct (HQ Hv) as (Q1 & Q2 & Q3). rewrite Hx in Q1. injection Q1 as -> ->. exists k, i. split_and!; try done.
      intros [?|[_ ?]]; [lia|done].
  - intros r d Hcd Hp. destruct (kid_in r d Hcd) as (K1 & K2 & _). destruct (decide (S r = k /\ d = i)) as [[E ->]|Hne].
    + subst k. destruct Hk as [_ ->]. rewrite !Hhv; try done; lia.
    + rewrite (Hhv (S r) d); [|by apply Hin|done]. rewrite (vi_inner _ _ _ _ _ _ HV) by (try done; rewrite vpend_cons; tauto).
      assert (Hrk : (S r <= k)%nat). { destruct (decide (S r <= k)%nat); [done|]. exfalso. apply Hp. left. lia. }
      rewrite !Hhv; try done; lia.
  - destruct (vi_leaf _ _ _ _ _ _ HV) as (dl & D1 & D2 & D3). destruct k as [|k].
    + destruct Hk as [Hk1 Hk2]. rewrite filter_cons_True in D1 by done. exists (dl ++ [i]). rewrite <- app_assoc. split; [done|]. split.
      * rewrite D2, Hk1, fmap_app, <- app_assoc. cbn [app fmap list_fmap]. f_equal. apply list_fmap_ext. intros m j Hj%elem_of_list_lookup_2. symmetry. apply Hhv.
        -- assert (Hj' : j ∈ crow n ts 0) by (rewrite D1; apply elem_of_app; by left). apply Hin. by apply cmpb_iff, crow_elem.
        -- intros [_ ->]. pose proof (sorted_lt_NoDup _ (crow_sorted n ts 0)) as Hn2. rewrite D1 in Hn2. apply NoDup_app in Hn2 as (_ & Hn2 & _).
           apply (Hn2 i Hj). left.
      * intros j. rewrite Hk2, D3, <- orb_assoc. f_equal. apply eq_true_iff_eq. rewrite orb_true_iff, !bool_decide_eq_true, N.eqb_eq, elem_of_app, elem_of_list_singleton. done.
    + destruct Hk as [[-> ->] _]. exists dl. split; [done|]. split; [|done].
      rewrite D2. f_equal. apply list_fmap_ext. intros m j Hj%elem_of_list_lookup_2. symmetry. apply Hhv; [|lia].
      assert (Hj' : j ∈ crow n ts 0) by (rewrite D1; apply elem_of_app; by left). apply Hin. by apply cmpb_iff, crow_elem.
  - intros Hh r j Hj. rewrite Hhv; [by apply (vi_need _ _ _ _ _ _ HV)| |].
    + apply trees_under, (srow_node n ts), srow_elem. by right.
    + intros [-> ->]. apply cmpb_iff in Hc. by destruct Hj as (_ & _ & ?).
  - pose proof (vi_g _ _ _ _ _ _ HV) as Hg'. match goal with |- takes _ _ ?o _ => replace o with ((λ x : nat * N, hvL (p_heap p) L x.1 x.2) <$> belowp n ts (S (N.to_nat R))); [exact Hg'|] end.
    apply list_fmap_ext. intros m [r j] Hb%elem_of_list_lookup_2. cbn [fst snd]. apply belowp_elem in Hb as [_ Hb]. symmetry. apply Hhv.
    + apply trees_under, (srow_node n ts), srow_elem. by right.
    + intros [-> ->]. apply cmpb_iff in Hc. by destruct Hb as (_ & _ & ?).
Qed.

Lemma crow0 : crow n ts 0 = ts.
Proof.
  destruct Hts as [Hs Hf]. apply ssorted_eq; [apply crow_sorted|done|]. intros x. rewrite crow_elem. unfold computed, node. change (2 ^ N.of_nat 0) with 1.
  rewrite Forall_forall in Hf. split.
  - intros (_ & t & Ht & <-). by rewrite N.div_1_r.
  - intros Hx. split; [apply Hf in Hx; lia|]. exists x. split; [done|]. apply N.div_1_r.
Qed.
Lemma app_fmap_inv {A} (f h : A -> N) (dl rest : list A) (l : list N) : (f <$> dl) ++ l = h <$> (dl ++ rest) -> (forall i, i ∈ dl -> f i = h i) /\ l = h <$> rest.
Proof.
  induction dl as [|x dl IH]; cbn; intros E.
  - split; [by intros i ?%elem_of_nil|done].
  - injection E as E1 E2. apply IH in E2 as [E2 E3]. split; [|done]. intros i [->|Hi]%elem_of_cons; auto.
Qed.
Lemma VI_prefix k ri p t ths M dl : VI k ri p t ths M -> (forall i, i ∈ dl -> i ∈ ts) -> ths0 = (hvL (p_heap p) L 0 <$> dl) ++ ths ->
  forall x i th, dl !! x = Some i -> ths0 !! x = Some th -> is_Some (L0 0%nat i) -> g 0%nat i = th.
Proof.
  intros HV Hdl D2 x i th Hx Hth Ho. rewrite D2, lookup_app_l, list_lookup_fmap, Hx in Hth by (rewrite fmap_length; by eapply lookup_lt_Some).
  injection Hth as <-. symmetry. apply (old_hv p t M); [apply HV| |done]. apply trees_under, cmp_node, cmpb_iff, crow_elem. rewrite crow0. by apply Hdl, elem_of_list_lookup_2 with x.
Qed.
(** All targets have been marked. *)
Lemma VI_all k ri p t ths M : VI k ri p t ths M -> match k with O => filter (λ i, cmp 0 i = true) ri | S _ => [] end = [] -> final M.
Proof.
  intros HV Hk. destruct (vi_leaf _ _ _ _ _ _ HV) as (dl & D1 & D2 & D3). rewrite crow0, Hk in D1. exists dl, []. split; [done|]. split; [done|]. split; [|done].
  apply (VI_prefix k ri p t ths M dl HV); [|done]. intros i Hi. rewrite D1. apply elem_of_app. by left.
Qed.
Lemma VI_done k ri p t ths M : VI k ri p t ths M -> k <> O -> final M.
Proof. intros HV Hk. apply (VI_all k ri p t ths M HV). by destruct k. Qed.
Lemma VI_end k p t ths M : VI k [] p t ths M -> final M.
Proof. intros HV. apply (VI_all k [] p t ths M HV). by destruct k. Qed.
(** The walk stops at a target. *)
Lemma VI_stop i ri p t ths M : VI 0 (i :: ri) p t ths M -> cmp 0 i = true -> (forall th, hd_error ths = Some th -> is_Some (L0 0%nat i) /\ g 0%nat i <> th) -> final M.
Proof.
  intros HV Hc Hst. destruct (vi_leaf _ _ _ _ _ _ HV) as (dl & D1 & D2 & D3). rewrite crow0, filter_cons_True in D1 by done.
  eexists dl, _. split; [exact D1|]. split; [done|]. split.
  - apply (VI_prefix 0 (i :: ri) p t ths M dl HV); [|done]. intros j Hj. rewrite D1. apply elem_of_app. by left.
  - intros th Hth. apply Hst. rewrite D2, lookup_app_r, fmap_length, Nat.sub_diag in Hth by (by rewrite fmap_length). by destruct ths.
Qed.
Lemma hon_true k ri p t ths M : VI k ri p t ths M -> hon' -> forall r i, (cmp r i = true /\ ~ vpend k ri r i) \/ needed n ts (N.of_nat r) i -> hvL (p_heap p) L r i = g r i.
Proof.
  intros HV [Hh Hth] r. induction r as [|r IH]; intros i [[Hc Hp]|Hnd']; try (by apply (vi_need _ _ _ _ _ _ HV Hh)).
  - destruct (vi_leaf _ _ _ _ _ _ HV) as (dl & D1 & D2 & _). rewrite Hth, <- crow0, D1 in D2. symmetry in D2. apply app_fmap_inv in D2 as [D2 _]. apply D2.
    apply cmpb_iff, crow_elem in Hc as Hi. rewrite D1 in Hi. apply elem_of_app in Hi as [?|Hi]; [done|]. exfalso. destruct k; [|by apply elem_of_nil in Hi].
    apply Hp. right. split; [done|]. by apply elem_of_list_filter in Hi as [_ ?].
  - rewrite (vi_inner _ _ _ _ _ _ HV) by done. rewrite Hg by (by apply cmp_node).
    assert (Hrk : (S r <= k)%nat). { destruct (decide (S r <= k)%nat); [done|]. exfalso. apply Hp. left. lia. }
    assert (Hkid : forall y, y / 2 = i -> hvL (p_heap p) L r y = g r y).
    { intros y Hy. apply IH. assert (Hs : y ∈ srow n ts r) by (apply elem_of_app; left; apply kids_elem; rewrite Hy; by apply crow_elem, cmpb_iff).
      apply srow_elem in Hs as [Hs|Hs]; [left|by right]. split; [by apply cmpb_iff|]. intros [?|[? _]]; lia. }
    destruct (half_2 i). by rewrite !Hkid.
Qed.

Lemma WI_hash p t M k i l nd v : WI p t M -> inT T k i -> L k i = Some l -> p_heap p !! l = Some nd -> L0 k i = None ->
  let p' := p_set_heap p (<[l := set_hash nd v]> (p_heap p)) in
  WI p' t M /\ hvL (p_heap p') L k i = v /\ forall r j, inT T r j -> (r = k /\ j = i -> False) -> hvL (p_heap p') L r j = hvL (p_heap p) L r j.
Proof.
  intros HW Hi Hl End H0 p'. pose proof (wi_rep _ _ _ HW) as HR.
  assert (Hne : forall r j l', inT T r j -> L r j = Some l' -> (r = k /\ j = i -> False) -> l' <> l).
  { intros r j l' Hj Hl' Hne ->. apply Hne. by apply (rp_inj _ _ _ _ HR _ _ _ _ _ Hj Hi Hl' Hl). }
  split; [split; try apply HW|].
  - apply rep_heap; [done|..].
    + intros o b. rewrite nc_insert. destruct (decide (o = Some l)) as [->|]; [|done]. by rewrite niece_set_hash, (nc_some _ _ _ _ End).
    + intros l'. apply is_Some_insert. by rewrite End.
  - intros r j l' Hj Ej. cbn [p' p_heap p_set_heap]. rewrite hv_insert. rewrite decide_False; [by apply (wi_old _ _ _ HW)|].
    apply (Hne r j); [done|by apply Hsub|]. intros [-> ->]. congruence.
  - split.
    + rewrite (hvL_some _ _ _ _ _ Hl). cbn [p' p_heap p_set_heap]. rewrite hv_insert. by rewrite decide_True.
    + intros r j Hj Hne'. unfold hvL. destruct (L r j) as [l'|] eqn:E; [|done]. cbn [p' p_heap p_set_heap]. rewrite hv_insert.
      rewrite decide_False; [done|]. by apply (Hne r j).
Qed.
Lemma WI_remember p t M i s nd : WI p t M -> i ∈ ts -> inT T 0 i -> L 0%nat (hp T 0 i) = Some s -> p_heap p !! s = Some nd ->
  let p' := p_set_heap p (<[s := set_niece nd false (Some rem)]> (p_heap p)) in
  WI p' t (λ j, M j || (j =? i)) /\ forall r j, hvL (p_heap p') L r j = hvL (p_heap p) L r j.
Proof.
  intros HW Ht Hi Hs End p'. pose proof (wi_rep _ _ _ HW) as HR.
  assert (Hhv : forall l, hv (p_heap p') l = hv (p_heap p) l).
  { intros l. cbn [p' p_heap p_set_heap]. rewrite hv_insert. destruct (decide (l = s)) as [->|]; [|done]. rewrite hash_set_niece. unfold hv. by rewrite End. }
  split; [split; try apply HW|].
  - by apply rep_remember.
  - intros j Hj. apply orb_true_iff. left. by apply (wi_M _ _ _ HW).
  - intros j [Hj| ->%N.eqb_eq]%orb_true_iff; [by apply (wi_M' _ _ _ HW)|by right].
  - intros r j l Hj Hl. rewrite Hhv. by apply (wi_old _ _ _ HW).
  - intros r j. unfold hvL. destruct (L r j); [|done]. apply Hhv.
Qed.

Definition upd (nx : list N) (k : nat) (i : N) : list N :=
  if cmp k i && negb (bool_decide ((N.of_nat k, i) ∈ T)) then
    match last nx with Some d => if d =? i / 2 then nx else nx ++ [i / 2] | None => nx ++ [i / 2] end
  else nx.
Lemma VI_skip k i ri p t ths M : VI k (i :: ri) p t ths M -> cmp k i = false -> VI k ri p t ths M.
Proof.
  intros HV Hc. split; try apply HV.
  - intros x r d w Hx Hw Hcd Hv. destruct (vi_valid _ _ _ _ _ _ HV x r d w Hx Hw Hcd Hv) as (r' & c & H1 & H2 & H3 & H4 & H5). exists r', c.
    rewrite vpend_cons in H3. split_and!; try done. tauto.
  - intros r d Hcd Hp. apply (vi_inner _ _ _ _ _ _ HV); [done|]. rewrite vpend_cons. intros [[<- ->]|?]; [|done]. congruence.
  - destruct (vi_leaf _ _ _ _ _ _ HV) as (dl & D1 & D2 & D3). exists dl. split; [|done]. destruct k; [|done]. by rewrite filter_cons_False in D1 by congruence.
Qed.
Lemma last_ids r next nx : ids cs r next nx -> match last next, last nx with Some z, Some d => cs !! N.to_nat z = Some (r, d) | None, None => True | _, _ => False end.
Proof.
  intros Hf. destruct (last next) as [z|] eqn:E1, (last nx) as [d|] eqn:E2.
  - rewrite (last_removelast _ _ E1), (last_removelast _ _ E2) in Hf. pose proof (Forall2_length _ _ _ Hf) as E.
    rewrite !app_length in E. cbn in E. apply Forall2_app_inv in Hf as [_ Hf]; [|lia]. by inversion Hf.
  - apply last_None in E2 as ->. apply Forall2_nil_inv_r in Hf as ->. done.
  - apply last_None in E1 as ->. apply Forall2_nil_inv_l in Hf as ->. done.
  - done.
Qed.
Lemma ids_upd k i next nx y : ids cs (S k) next nx -> cmp k i = true -> (N.of_nat k, i) ∉ T -> cs !! N.to_nat y = Some (S k, i / 2) ->
  ids cs (S k) (match last next with Some z => if z =? y then next else next ++ [y] | None => next ++ [y] end) (upd nx k i).
Proof.
  intros Hf Hc Hr Hy. unfold upd. rewrite Hc, bool_decide_false by done. cbn [andb negb].
  assert (Happ : ids cs (S k) (next ++ [y]) (nx ++ [i / 2])) by (apply Forall2_app; [done|repeat constructor; done]).
  pose proof (last_ids _ _ _ Hf) as Hl. destruct (last next) as [z|], (last nx) as [d|]; try done.
  destruct (N.eqb_spec z y) as [->|Hne], (N.eqb_spec d (i / 2)) as [->|Hne2]; try done.
  - exfalso. rewrite Hy in Hl. injection Hl. congruence.
  - exfalso. apply Hne. apply N2Nat.inj. by apply (NoDup_lookup _ _ _ _ Hnd Hl Hy).
Qed.

Lemma verify_node_ok k i ri p t ths M next nx x : VI k (i :: ri) p t ths M -> i ∈ srow n ts k -> i ∉ ri -> cs !! N.to_nat x = Some (k, i) -> ids cs (S k) next nx ->
  wp False (verify_node H p t ths next x) (λ '(p', t', ths', next', v),
    match v with
    | VGo => exists M', VI k ri p' t' ths' M' /\ ids cs (S k) next' (upd nx k i)
    | _ => ~ hon' /\ exists M', WI p' t' M' /\ final M'
    end).
Proof.
  intros HV His Hi Hx Hnx. pose proof (vi_w _ _ _ _ _ _ HV) as HW. pose proof (wi_rep _ _ _ HW) as HR.
  destruct (wi_w _ _ _ HW _ _ _ Hx) as (w & Hw & [W1 W2 W3 W4]).
  unfold verify_node. rewrite (vec_get_eq _ _ _ Hw). cbn [bind].
  destruct (cmp k i) eqn:Hc.
  2: { destruct W4 as (_ & _ & _ & ->).
       { left. apply elem_of_app in His as [Hk|Hk].
         - apply (kid_not_root T k i (trees_disj n)). apply trees_under. apply kids_elem, crow_node in Hk. done.
         - apply elem_of_list_filter in Hk as [_ Hk]. apply crow_elem, cmpb_iff in Hk. congruence. }
       cbn [negb wp]. exists M. split; [by apply VI_skip with i|]. unfold upd. by rewrite Hc. }
  destruct W4 as (W4 & W5 & W6 & W7); [by right|]. rewrite W7. cbn [negb].
  assert (Hin : inT T k i) by (by apply trees_under, cmp_node).
  assert (Hnode : node n (N.of_nat k) i) by (by apply cmp_node).
  destruct (cmp_some k i p M HR Hc) as [[l Hl] [s Hs]].
  destruct (rep_get _ _ _ _ HR _ _ _ Hin Hl) as [nd End].
  destruct (rep_get _ _ _ _ HR _ _ _ (inT_hp _ _ _ (trees_disj n) Hin) Hs) as [nds Ends].
  (* the parent *)
  assert (Hnext : ids cs (S k) (match w_parent w with
               | None => next
               | Some y => match last next with
                           | Some z => if z =? y then next else next ++ [y]
                           | None => next ++ [y]
                           end
               end) (upd nx k i)).
  { destruct (w_parent w) as [y|]; [destruct W3; by apply ids_upd|]. unfold upd. rewrite bool_decide_true by done. by rewrite andb_false_r. }
  remember (match w_parent w with
               | None => next
               | Some y => match last next with
                           | Some z => if z =? y then next else next ++ [y]
                           | None => next ++ [y]
                           end
               end) as next1 eqn:En1. clear En1.
  assert (Hmark : forall (t : wtab) (b : bool), WI p t M -> exists t' : wtab, (match w_parent w with
              | Some y => if b then mark_valid t y else Ok t
              | None => Ok t
              end) = Ok t' /\ tabrel t t' (λ x, b = true /\ (N.of_nat k, i) ∉ T /\ cs !! x = Some (S k, i / 2))).
  { intros t2 b HW2. destruct (w_parent w) as [y|]; [|exists t2; split; [done|apply tabrel_refl]]. destruct W3 as [W3 Hy].
    destruct b; [|exists t2; split; [done|apply tabrel_refl]]. destruct (wi_w _ _ _ HW2 _ _ _ Hy) as (wy & Hwy & _).
    destruct (mark_valid_ok t2 y wy Hwy) as (t' & E & Hrel). exists t'. split; [done|]. eapply tabrel_mono; [|exact Hrel]. intros x' ->. done. }
  destruct (Hmark t (v_valid (w_flag w)) HW) as (t1 & Et1 & Hrel1).
  rewrite Et1. cbn [bind]. clear Et1.
  pose proof (WI_tab _ _ _ _ _ HW Hrel1) as HW1.
  rewrite W4, (wi_n _ _ _ HW), leaf_test by done.
  assert (Hsib : (N.of_nat k, i) ∉ T -> hp T k i = sib i) by (intros Hr; unfold hp; by rewrite decide_False).
  assert (Hold : is_Some (L0 k i) -> hvL (p_heap p) L k i = g k i) by (intros; by apply (old_hv p t M)).
  assert (Hhvl : hvL (p_heap p) L k i = i_hash nd) by (rewrite (hvL_some _ _ _ _ _ Hl); unfold hv; by rewrite End).
  destruct k as [|k]; cbn [Nat.eqb].
  - (* a target *)
    assert (Hit : i ∈ ts) by (rewrite <- crow0; by apply crow_elem, cmpb_iff).
    assert (Hval : v_valid (w_flag w) = false).
    { destruct (v_valid (w_flag w)) eqn:E; [|done]. destruct (vi_valid _ _ _ _ _ _ HV _ _ _ _ Hx Hw Hc E) as (r' & c & ? & _). done. }
    rewrite Hval in Hrel1.
    destruct (vi_leaf _ _ _ _ _ _ HV) as (dl & D1 & D2 & D3). rewrite filter_cons_True in D1 by done.
    assert (Hth : hon' -> exists ths', ths = g 0%nat i :: ths').
    { intros [_ E]. rewrite E, <- crow0, D1 in D2. symmetry in D2. apply app_fmap_inv in D2 as [_ D2]. rewrite D2. by eexists. }
    assert (Hfin : (forall th, hd_error ths = Some th -> is_Some (L0 0%nat i) /\ g 0%nat i <> th) -> final M) by (by apply (VI_stop i ri p t ths M)).
    destruct ths as [|th ths'].
    { cbn [wp]. split; [intros Hh; by destruct (Hth Hh)|]. exists M. split; [done|by apply Hfin]. }
    rewrite W1, Hl, (deref_ok _ _ _ End). cbn [bind snd fst]. rewrite W5.
    destruct (L0 0%nat i) as [l0|] eqn:EL0; cbn [pres1].
    + destruct (N.eqb_spec (i_hash nd) th) as [Eth|Eth].
      * destruct (Hmark t1 (v_sibcached (w_flag w)) HW1) as (t2 & Et2 & Hrel2). rewrite Et2. cbn [bind].
        rewrite W2, Hs, (deref_ok _ _ _ Ends). cbn [bind fst snd wp negb].
        pose proof (WI_tab _ _ _ _ _ HW1 Hrel2) as HW2.
        destruct (WI_remember p t2 M i s nds HW2 Hit Hin Hs Ends) as [HW3 Hhv3].
        eexists. split; [|exact Hnext]. eapply VI_step; [exact HV|done|done|exact HW3|intros; apply Hhv3| |].
        -- eapply tabrel_trans; [eapply tabrel_mono; [|exact Hrel1]|eapply tabrel_mono; [|exact Hrel2]].
           ++ by intros x' [? _].
           ++ intros x' (E1 & E2 & E3). split; [done|]. rewrite Hhv3, Hold by done. split; [|done]. rewrite W6, Hsib in E1 by done. by destruct (L0 0%nat (sib i)).
        -- rewrite Hhv3, Hhvl, Eth. done.
      * cbn [bind negb wp]. split; [intros Hh; destruct (Hth Hh) as (ths'' & [= -> _]); apply Eth; rewrite <- Hhvl; by apply Hold|].
        exists M. split; [done|]. apply Hfin. intros th' [= <-]. split; [done|]. by rewrite <- Hold, Hhvl.
    + cbn [bind]. destruct (WI_hash p t1 M 0 i l nd th HW1 Hin Hl End EL0) as (HW2 & Hhv2 & Hhv2').
      rewrite W2, Hs. pose proof (wi_rep _ _ _ HW2) as HR2.
      destruct (rep_get _ _ _ _ HR2 _ _ _ (inT_hp _ _ _ (trees_disj n) Hin) Hs) as [nds2 Ends2]. rewrite (deref_ok _ _ _ Ends2). cbn [bind fst snd wp negb].
      destruct (WI_remember _ t1 M i s nds2 HW2 Hit Hin Hs Ends2) as [HW3 Hhv3].
      eexists. split; [|exact Hnext]. eapply VI_step; [exact HV|done|done|exact HW3| | |].
      * intros r j Hj Hne. rewrite Hhv3. by apply Hhv2'.
      * eapply tabrel_mono; [|exact Hrel1]. by intros x' [? _].
      * rewrite Hhv3, Hhv2. done.
  - (* an inner node *)
    destruct (kid_in k i Hc) as (K1 & K2 & [a Ka] & [b Kb]). destruct (half_2 i) as [Hh1 Hh2]. destruct (odd_2 i) as [Ho1 Ho2].
    destruct (rep_get _ _ _ _ HR _ _ _ K1 Ka) as [nda Enda]. destruct (rep_get _ _ _ _ HR _ _ _ K2 Kb) as [ndb Endb].
    assert (El : i_l nds = Some a).
    { rewrite <- Ka. rewrite <- (rp_kid _ _ _ _ HR k (2 * i)) by (by rewrite Hh1). rewrite Hh1, Hs, Ho1, (nc_some _ _ _ _ Ends). done. }
    assert (Er : i_r nds = Some b).
    { rewrite <- Kb. rewrite <- (rp_kid _ _ _ _ HR k (2 * i + 1)) by (by rewrite Hh2). rewrite Hh2, Hs, Ho2, (nc_some _ _ _ _ Ends). done. }
    assert (Hva : hvL (p_heap p) L k (2 * i) = i_hash nda) by (rewrite (hvL_some _ _ _ _ _ Ka); unfold hv; by rewrite Enda).
    assert (Hvb : hvL (p_heap p) L k (2 * i + 1) = i_hash ndb) by (rewrite (hvL_some _ _ _ _ _ Kb); unfold hv; by rewrite Endb).
    assert (Hgood : v_valid (w_flag w) = true -> is_Some (L0 (S k) (hp T (S k) i)) /\ H (i_hash nda) (i_hash ndb) = g (S k) i).
    { intros Hv. destruct (vi_valid _ _ _ _ _ _ HV _ _ _ _ Hx Hw Hc Hv) as (r' & c & E1 & E2 & _ & E4 & E5). injection E1 as <-. split.
      - destruct E4 as [ls Els]. rewrite <- E2, <- (sib_half c). eapply (rep_holder _ _ _ _ HR0); [|exact Els]. rewrite sib_half, E2. done.
      - assert (E6 : hvL (p_heap p) L k (sib c) = g k (sib c)).
        { apply (old_hv p t M); [done| |done]. apply inT_sib. by rewrite E2. }
        rewrite Hg by done. rewrite <- Hva, <- Hvb. destruct (two_half c) as [Ec|Ec]; rewrite E2 in Ec; subst c.
        + rewrite (proj1 (sib_2 i)) in E6. by rewrite E5, E6.
        + rewrite (proj2 (sib_2 i)) in E6. by rewrite E5, E6. }
    assert (Hk1 : hon' -> H (i_hash nda) (i_hash ndb) = g (S k) i).
    { intros Hh. rewrite Hg, <- Hva, <- Hvb by done.
      assert (Hkid : forall y, y / 2 = i -> hvL (p_heap p) L k y = g k y).
      { intros y Hy. apply (hon_true _ _ _ _ _ _ HV Hh).
        assert (Hs' : y ∈ srow n ts k) by (apply elem_of_app; left; apply kids_elem; rewrite Hy; by apply crow_elem, cmpb_iff).
        apply srow_elem in Hs' as [Hs'|Hs']; [left|by right]. split; [by apply cmpb_iff|]. intros [?|[? _]]; lia. }
      by rewrite !Hkid. }
    rewrite W5. destruct (L0 (S k) i) as [l0|] eqn:EL0; cbn [pres1].
    + destruct (v_valid (w_flag w)) eqn:Hv; cbn [negb andb].
      * (* valid and cached *)
        cbn [wp]. exists M. split; [|exact Hnext]. destruct (Hgood eq_refl) as [G1 G2].
        eapply VI_step; [exact HV|done|done|exact HW1|done| |].
        -- eapply tabrel_mono; [|exact Hrel1]. intros x' (_ & E2 & E3). split; [done|]. rewrite <- Hsib by done. split; [done|]. by apply Hold.
        -- split; [done|]. by rewrite Hold, Hva, Hvb, G2.
      * unfold P_ReHashAndVerify. rewrite W2, Hs, (deref_ok _ _ _ Ends). cbn [bind snd]. rewrite El, Er. cbn [is_null orb]. rewrite Hv.
        rewrite (deref_ok _ _ _ Enda). cbn [bind]. rewrite (deref_ok _ _ _ Endb). cbn [bind]. rewrite W1, Hl, (deref_ok _ _ _ End). cbn [bind snd].
        destruct (N.eqb_spec (H (i_hash nda) (i_hash ndb)) (i_hash nd)) as [E|E]; cbn [negb].
        -- destruct (Hmark t1 (v_sibcached (w_flag w)) HW1) as (t2 & Et2 & Hrel2). rewrite Et2. cbn [bind wp].
           pose proof (WI_tab _ _ _ _ _ HW1 Hrel2) as HW2.
           exists M. split; [|exact Hnext]. eapply VI_step; [exact HV|done|done|exact HW2|done| |].
           ++ eapply tabrel_trans; [eapply tabrel_mono; [|exact Hrel1]|eapply tabrel_mono; [|exact Hrel2]].
              ** by intros x' [? _].
              ** intros x' (E1 & E2 & E3). split; [done|]. rewrite Hold by done. split; [|done]. rewrite W6, Hsib in E1 by done. by destruct (L0 (S k) (sib i)).
           ++ split; [done|]. by rewrite Hhvl, Hva, Hvb, E.
        -- cbn [wp]. split; [intros Hh; apply E; rewrite (Hk1 Hh), <- Hhvl; symmetry; by apply Hold|]. exists M. split; [done|]. by apply (VI_done (S k) (i :: ri) p t ths M).
    + rewrite !andb_false_r. unfold P_ReHashNoPrune. rewrite W2, Hs, (deref_ok _ _ _ Ends). cbn [bind snd]. rewrite El, Er. cbn [is_null orb].
      rewrite (deref_ok _ _ _ Enda). cbn [bind]. rewrite (deref_ok _ _ _ Endb). cbn [bind]. rewrite W1, Hl, (deref_ok _ _ _ End). cbn [bind snd fst].
      destruct (w_parent w) as [y|] eqn:Ey.
      2: { exfalso. destruct (rp_root _ _ _ _ HR0 (S k) i W3). congruence. }
      cbn [assert_ bind wp]. destruct (WI_hash p t1 M (S k) i l nd (H (i_hash nda) (i_hash ndb)) HW1 Hin Hl End EL0) as (HW2 & Hhv2 & Hhv2').
      exists M. split; [|exact Hnext]. eapply VI_step; [exact HV|done|done|exact HW2|done| |].
      * eapply tabrel_mono; [|exact Hrel1]. intros x' (E1 & E2 & E3). split; [done|]. destruct (Hgood E1) as [G1 G2]. rewrite <- Hsib by done. split; [done|].
        by rewrite Hhv2.
      * split; [done|]. by rewrite Hhv2, Hva, Hvb.
Qed.

Definition nxok (k : nat) (dn nx : list N) : Prop :=
  StronglySorted N.lt nx /\ forall d, d ∈ nx <-> exists i, i ∈ dn /\ cmp k i = true /\ (N.of_nat k, i) ∉ T /\ i / 2 = d.
Lemma nxok_upd k dn nx i : nxok k dn nx -> (forall j, j ∈ dn -> j < i) -> nxok k (dn ++ [i]) (upd nx k i).
Proof.
  intros [Hs Hx] Hlt. unfold upd. destruct (cmp k i && negb (bool_decide ((N.of_nat k, i) ∈ T))) eqn:E.
  - apply andb_true_iff in E as [Hc Hr]. apply negb_true_iff, bool_decide_eq_false in Hr.
    assert (Hle : forall d, d ∈ nx -> d <= i / 2).
    { intros d Hd. apply Hx in Hd as (j & Hj & _ & _ & <-). apply Hlt in Hj. apply N.div_le_mono; lia. }
    assert (Hel : forall d, (d ∈ nx \/ d = i / 2) <-> exists j, j ∈ dn ++ [i] /\ cmp k j = true /\ (N.of_nat k, j) ∉ T /\ j / 2 = d).
    { intros d. rewrite Hx. split.
      - intros [(j & H1 & H2)| ->]; [exists j; split; [apply elem_of_app; by left|done]|]. exists i. split; [apply elem_of_app; right; by left|done].
      - intros (j & [Hj|Hj%elem_of_list_singleton]%elem_of_app & H2); [left; by exists j|]. subst j. right. by destruct H2 as (_ & _ & ->). }
    assert (Happ : (forall d, d ∈ nx -> d <> i / 2) -> nxok k (dn ++ [i]) (nx ++ [i / 2])).
    { intros Hne. split.
      - apply sorted_app_lt; [done|repeat constructor|]. intros a b Ha Hb%elem_of_list_singleton. subst b. pose proof (Hle a Ha). pose proof (Hne a Ha). lia.
      - intros d. rewrite elem_of_app, elem_of_list_singleton. apply Hel. }
    destruct (last nx) as [d|] eqn:El.
    + pose proof (last_Some_elem_of _ _ El) as Hd. destruct (N.eqb_spec d (i / 2)) as [->|Hne].
      * split; [done|]. intros d. rewrite <- Hel. split; [by left|]. by intros [?| ->].
      * apply Happ. intros d' Hd' ->. rewrite (last_removelast _ _ El) in Hs, Hd'. apply sorted_snoc in Hs as [_ Hs]. pose proof (Hle d Hd).
        apply elem_of_app in Hd' as [Hd'|Hd'%elem_of_list_singleton]; [apply Hs in Hd'; lia|congruence].
    + apply Happ. apply last_None in El as ->. by intros d ?%elem_of_nil.
  - split; [done|]. intros d. rewrite Hx. split.
    + intros (j & H1 & H2). exists j. split; [apply elem_of_app; by left|done].
    + intros (j & [Hj|Hj%elem_of_list_singleton]%elem_of_app & H2 & H3 & H4); [by exists j|]. subst j. exfalso. rewrite H2, bool_decide_false in E by done. done.
Qed.
Lemma verify_row_ok k is : forall p t ths M next nx xs dn, VI k is p t ths M -> (forall j, j ∈ is -> j ∈ srow n ts k) -> StronglySorted N.lt (dn ++ is) ->
  ids cs k xs is -> ids cs (S k) next nx -> nxok k dn nx ->
  wp False (verify_row H p t ths next xs) (λ '(p', t', ths', next', v),
    match v with
    | VGo => exists M' nx', VI k [] p' t' ths' M' /\ ids cs (S k) next' nx' /\ nxok k (dn ++ is) nx'
    | _ => ~ hon' /\ exists M', WI p' t' M' /\ final M'
    end).
Proof.
  induction is as [|i is IH]; intros p t ths M next nx xs dn HV Hin Hso Hxs Hids Hnx.
  - apply Forall2_nil_inv_r in Hxs as ->. cbn [verify_row wp]. rewrite app_nil_r. exists M, nx. done.
  - apply Forall2_cons_inv_r in Hxs as (x & xs' & Hx & Hxs & ->). cbn [verify_row]. apply wp_bind.
    assert (Hsplit : (forall j, j ∈ dn -> j < i) /\ i ∉ is).
    { clear - Hso. induction dn as [|a dn IHd]; cbn [app] in Hso.
      - split; [by intros j ?%elem_of_nil|]. apply StronglySorted_inv in Hso as [_ Hf]. intros Hi. rewrite Forall_forall in Hf. apply Hf in Hi. lia.
      - apply StronglySorted_inv in Hso as [Hso Hf]. destruct (IHd Hso) as [H1 H2]. split; [|done]. rewrite Forall_forall in Hf.
        intros j [->|Hj]%elem_of_cons; [apply Hf, elem_of_app; right; left|by apply H1]. }
    destruct Hsplit as [Hlt Hi].
    eapply wp_mono; [apply (verify_node_ok k i is p t ths M next nx x); try done; apply Hin; left|].
    intros [[[[p1 t1] ths1] next1] v] Hv. destruct v; [|cbn [wp]; done..]. destruct Hv as (M1 & HV1 & Hids1).
    eapply wp_mono; [eapply (IH _ _ _ _ _ _ _ (dn ++ [i])); [exact HV1| | |exact Hxs|exact Hids1|by apply nxok_upd]|].
    + intros j Hj. apply Hin. by right.
    + by rewrite <- app_assoc.
    + intros [[[[p2 t2] ths2] next2] v2] Hv2. rewrite <- app_assoc in Hv2. exact Hv2.
Qed.

Definition vrow (k : nat) : list N := match k with O => srow n ts 0 | S _ => crow n ts k end.
Lemma vrow_srow k j : j ∈ vrow k -> j ∈ srow n ts k.
Proof. destruct k; [done|]. cbn [vrow]. intros Hj. apply srow_elem. left. by apply crow_elem. Qed.
Lemma vrow_cmp k j : cmp k j = true -> j ∈ vrow k.
Proof. intros Hc. destruct k; cbn [vrow]; [apply srow_elem; left; by apply cmpb_iff|by apply crow_elem, cmpb_iff]. Qed.
Lemma vrow_sorted k : StronglySorted N.lt (vrow k).
Proof. destruct k; [apply srow_sorted|apply crow_sorted]. Qed.
Lemma nxok_row k nx : nxok k (vrow k) nx -> nx = crow n ts (S k).
Proof.
  intros [Hs Hx]. apply ssorted_eq; [done|apply crow_sorted|]. intros d. rewrite Hx, crow_elem. split.
  - intros (i & Hi & Hc & Hr & <-). apply computed_up; [by apply cmpb_iff|]. apply trees_up; [by apply cmp_node|done].
  - intros Hd. destruct (computed_kid n ts k d Hd) as (c & Hc & E). exists c. split; [by apply vrow_cmp, cmpb_iff|]. split; [by apply cmpb_iff|]. split; [|done].
    apply (kid_not_root T k c (trees_disj n)). rewrite E. apply trees_under, Hd.
Qed.
Lemma VI_next k p t ths M : VI k [] p t ths M -> VI (S k) (crow n ts (S k)) p t ths M.
Proof.
  intros HV. split; try apply HV.
  - intros x r d w Hx Hw Hcd Hv. destruct (vi_valid _ _ _ _ _ _ HV x r d w Hx Hw Hcd Hv) as (r' & c & H1 & H2 & H3 & H4 & H5). exists r', c.
    split_and!; try done. intros Hp. apply H3. left. destruct Hp as [?|[? _]]; lia.
  - intros r d Hcd Hp. apply (vi_inner _ _ _ _ _ _ HV); [done|]. intros [Hr|[_ ?%elem_of_nil]]; [|done]. apply Hp.
    destruct (decide (r = k)) as [->|]; [|left; lia]. right. split; [done|]. by apply crow_elem, cmpb_iff.
  - destruct (vi_leaf _ _ _ _ _ _ HV) as (dl & D1 & D2 & D3). exists dl. split; [|done]. rewrite D1. by destruct k.
Qed.
Lemma crow_nil k r : crow n ts k = [] -> (k <= r)%nat -> crow n ts r = [].
Proof.
  intros Hk Hr. induction Hr as [|r Hr IH]; [done|]. destruct (crow n ts (S r)) as [|d l] eqn:E; [done|].
  assert (Hd : d ∈ crow n ts (S r)) by (rewrite E; left). apply crow_elem in Hd. destruct (computed_kid n ts r d Hd) as (c & Hc & _).
  apply crow_elem in Hc. rewrite IH in Hc. by apply elem_of_nil in Hc.
Qed.
Lemma verify_rows_ok fuel : forall k p t ths M xs, VI k (vrow k) p t ths M -> ids cs k xs (vrow k) -> (64 <= fuel + k)%nat ->
  wp False (verify_rows H fuel p t ths xs) (λ '(p', t', ok), (hon' -> ok = true) /\ (exists M', WI p' t' M' /\ final M') /\
    (ok = true -> exists k' M', VI k' [] p' t' [] M' /\ crow n ts k' = [])).
Proof.
  induction fuel as [|fuel IH]; intros k p t ths M xs HV Hids Hf.
  all: destruct xs as [|x xs]; cbn [verify_rows].
  1, 3: apply Forall2_nil_inv_l in Hids; rewrite Hids in HV; cbn [wp];
    assert (Hck : crow n ts k = []) by (destruct k; cbn [vrow] in Hids; [by rewrite <- srow_comp, Hids|done]);
    (split; [|split; [exists M; split; [apply HV|by apply (VI_end k p t ths M)]|intros E; exists k, M; split; [by destruct ths|done]]]);
    intros [_ Hth]; destruct (vi_leaf _ _ _ _ _ _ HV) as (dl & D1 & D2 & _);
    rewrite Hth, <- crow0, D1 in D2; symmetry in D2; apply app_fmap_inv in D2 as [_ D2]; rewrite D2; by destruct k.
  - exfalso. assert (k <= 62)%nat; [|lia]. destruct k as [|k]; [lia|].
    assert (HR62 : R <= 62) by (by apply NumRows_le).
    apply Forall2_cons_inv_l in Hids as (i & is & _ & _ & E). cbn [vrow] in E.
    assert (Hi : i ∈ crow n ts (S k)) by (rewrite E; left). apply crow_node, node_slot in Hi. destruct Hi. lia.
  - apply wp_bind. eapply wp_mono; [apply (verify_row_ok k (vrow k) p t ths M [] [] (x :: xs) []); try done|].
    + intros j. apply vrow_srow.
    + apply vrow_sorted.
    + constructor.
    + split; [constructor|]. intros d. split; [by intros ?%elem_of_nil|]. intros (i & ?%elem_of_nil & _). done.
    + intros [[[[p1 t1] ths1] next1] v] Hv. destruct v.
      2, 3: cbn [wp]; destruct Hv as [Hh [M' HW']]; split; [intros; done|]; split; [by exists M'|done].
      destruct Hv as (M1 & nx & HV1 & Hids1 & Hnx). cbn [app] in Hnx. apply nxok_row in Hnx. rewrite Hnx in Hids1.
      apply (IH (S k) p1 t1 ths1 M1); [by apply VI_next|done|lia].
Qed.
Lemma VI_final k p t M : VI k [] p t [] M -> crow n ts k = [] ->
  (forall r d, cmp (S r) d = true -> hvL (p_heap p) L (S r) d = H (hvL (p_heap p) L r (2 * d)) (hvL (p_heap p) L r (2 * d + 1))) /\
  ths0 = hvL (p_heap p) L 0 <$> ts /\ forall i, i ∈ ts -> M i = true.
Proof.
  intros HV Hk. split.
  - intros r d Hc. apply (vi_inner _ _ _ _ _ _ HV); [done|]. intros [Hr|[_ ?%elem_of_nil]]; [|done].
    apply cmpb_iff, crow_elem in Hc. rewrite (crow_nil k) in Hc by (done || lia). by apply elem_of_nil in Hc.
  - destruct (vi_leaf _ _ _ _ _ _ HV) as (dl & D1 & D2 & D3).
    assert (dl = ts) as -> by (rewrite <- crow0, D1; destruct k; by rewrite app_nil_r).
    rewrite app_nil_r in D2. split; [done|]. intros i Hi. rewrite D3. apply orb_true_iff. right. by apply bool_decide_eq_true.
Qed.
End Verify.
