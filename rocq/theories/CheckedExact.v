(** * CheckedExact: exactly when the check in Verify fails (proofs) *)
From stdpp Require Import sorting.
From Verif Require Import Base StateModel CodecModel ForestModel PollardModel CheckedModel PosSpec PosFacts PathFacts MerkleSpec MarkSpec CodecSpec CodecFacts TargetFacts ForestFacts
  RowFacts TransformFacts SpecFacts RemoveFacts ForestInv AddFacts ForestSpec HistFacts ProofSpec TakeFacts ProveFacts PollardSpec PollardRep PollardOps PollardAdd PollardRemove PollardRows PollardInit PollardCreate
  PollardVerify PollardVerifyMain PollardPrune PollardHist PollardProps PollardCount PosmapFacts PollardRecall MemoryFacts CheckedPollard CheckedVerify MarkFacts.
From Coq Require Import ZifyBool ZifyNat ZifyN.
Ltac Zify.zify_post_hook ::= idtac.
Ltac dlia := zify; Z.div_mod_to_equations; lia.

(** The walk up the proof tree, in the situation of [PollardVerify]. *)
Section Walk.
Context (H : hash -> hash -> hash) (n : N) (Hn : n <= 2 ^ 62) (ts : list N) (Hts : valid_targets n ts).
Context (p0 : pollard) (L0 : lmap) (M0 : N -> bool) (g : nat -> N -> hash) (prf ths0 : list hash) (Hlen : length ths0 = length ts).
Context (HR0 : rep p0 (trees n) L0 M0).
Context (Hg : forall r d, node n (N.of_nat (S r)) d -> g (S r) d = H (g r (2 * d)) (g r (2 * d + 1))).
Notation R := (NumRows n).
Notation T := (trees n).
Notation cmp := (cmpb n ts).
Context (cs : list (nat * N)) (L : lmap).
Context (Hnd : NoDup cs) (Hcs : forall r j, (r, j) ∈ cs -> (N.of_nat r, j) ∈ T \/ cmp (S r) (j / 2) = true).
Context (Hsub : forall r i l, L0 r i = Some l -> L r i = Some l) (Hnew : forall r i, cmp (S r) (i / 2) = true -> is_Some (L r i)).
Notation WI' := (WI n ts p0 L0 M0 g cs L).
Notation VI' := (VI H n ts p0 L0 M0 g prf ths0 cs L).
(** The hashes of the first [x] + 1 targets agree with the stored ones. *)
Definition agr (x : nat) : Prop := forall y t th, (y <= x)%nat -> ts !! y = Some t -> ths0 !! y = Some th -> is_Some (L0 0%nat t) -> g 0%nat t = th.
(** The check fails at the target with index [x]. *)
Definition badt (x : nat) : Prop := exists i, ts !! x = Some i /\ agr x /\ is_Some (L0 0%nat i) /\ (0, i) ∉ T /\ M0 (sib i) = false /\ sib i ∉ take x ts /\ p_posmap p0 !! g 0%nat i = None.
Definition bad_from (d : nat) : Prop := exists x, (d <= x)%nat /\ badt x.

Lemma leaf_check_inner k i p t ths M x : WI' p t M -> i ∈ srow n ts k -> cs !! N.to_nat x = Some (k, i) -> cmp k i = false \/ k <> O -> leaf_check p t ths x = Ok tt.
Proof using Hn.
  intros HW His Hx Hk. destruct (wi_w _ _ _ _ _ _ _ _ _ _ _ HW _ _ _ Hx) as (w & Hw & [W1 W2 W3 W4]).
  unfold leaf_check. rewrite (vec_get_eq _ _ _ Hw). cbn [bind].
  destruct (cmp k i) eqn:Hc.
  2: { destruct W4 as (_ & _ & _ & ->); [|done]. left. apply elem_of_app in His as [Hki|Hki].
       - apply (kid_not_root T k i (trees_disj n)). apply trees_under. apply kids_elem, crow_node in Hki. done.
       - apply elem_of_list_filter in Hki as [_ Hki]. apply crow_elem, cmpb_iff in Hki. congruence. }
  destruct W4 as (W4 & W5 & W6 & W7); [by right|]. rewrite W7. cbn [negb orb].
  assert (Hnode : node n (N.of_nat k) i) by (by apply (cmp_node n ts)).
  rewrite W4, (wi_n _ _ _ _ _ _ _ _ _ _ _ HW), leaf_test by done. destruct k as [|k]; cbn [Nat.eqb negb]; [|done]. by destruct Hk.
Qed.
Lemma leaf_check_exact i ri p t ths M x dl : VI' 0 (i :: ri) p t ths M -> cs !! N.to_nat x = Some (0%nat, i) -> cmp 0 i = true ->
  crow n ts 0 = dl ++ filter (λ j, cmp 0 j = true) (i :: ri) -> ths0 = (hvL (p_heap p) L 0 <$> dl) ++ ths -> (forall j, M j = M0 j || bool_decide (j ∈ dl)) ->
  (badt (length dl) /\ leaf_check p t ths x = Abort) \/ (~ badt (length dl) /\ leaf_check p t ths x = Ok tt).
Proof using Hn Hts Hlen HR0 Hg Hcs Hsub Hnew.
  intros HV Hx Hc D1 D2 D3. pose proof (vi_w _ _ _ _ _ _ _ _ _ _ _ _ _ _ _ _ _ HV) as HW. destruct (wi_w _ _ _ _ _ _ _ _ _ _ _ HW _ _ _ Hx) as (w & Hw & [W1 W2 W3 W4]).
  rewrite (crow0 H n Hn ts Hts L0 g Hg cs L Hcs Hsub Hnew), filter_cons_True in D1 by done.
  assert (Hi : ts !! length dl = Some i) by (rewrite D1, lookup_app_r, Nat.sub_diag by done; done).
  assert (Htk : take (length dl) ts = dl) by (rewrite D1; apply take_app).
  assert (Hpre : forall y j th, dl !! y = Some j -> ths0 !! y = Some th -> is_Some (L0 0%nat j) -> g 0%nat j = th).
  { eapply (VI_prefix H n Hn ts Hts p0 L0 M0 g prf ths0 Hg cs L Hcs Hsub Hnew); [exact HV| |exact D2]. intros j Hj. rewrite D1. apply elem_of_app. by left. }
  assert (Hhd : forall th, hd_error ths = Some th -> ths0 !! length dl = Some th).
  { intros th Hth. rewrite D2, lookup_app_r, fmap_length, Nat.sub_diag by (by rewrite fmap_length). by destruct ths. }
  unfold leaf_check. rewrite (vec_get_eq _ _ _ Hw). cbn [bind].
  destruct W4 as (W4 & W5 & W6 & W7); [by right|]. rewrite W7, Hc. cbn [negb orb].
  assert (Hnode : node n (N.of_nat 0) i) by (by apply (cmp_node n ts)).
  assert (Hin : inT T 0 i) by (by apply trees_under).
  rewrite W4, (wi_n _ _ _ _ _ _ _ _ _ _ _ HW), leaf_test by done. cbn [Nat.eqb negb].
  destruct ths as [|th ths].
  { exfalso. rewrite app_nil_r in D2. apply (f_equal length) in D2. rewrite fmap_length, Hlen in D2. apply lookup_lt_Some in Hi. lia. }
  specialize (Hhd th eq_refl). cbn [assert_ bind]. rewrite W5. destruct (L0 0%nat i) as [l|] eqn:EL; cbn [pres1 negb].
  2: { right. split; [|done]. intros (j & Ej & _ & Hs & _). rewrite Hi in Ej. injection Ej as <-. rewrite EL in Hs. by destruct Hs. }
  pose proof (Hsub _ _ _ EL) as El. pose proof (wi_rep _ _ _ _ _ _ _ _ _ _ _ HW) as HR.
  destruct (rep_get _ _ _ _ HR _ _ _ Hin El) as [nd End]. rewrite W1, El, (deref_ok _ _ _ End). cbn [bind snd].
  assert (Hgi : i_hash nd = g 0%nat i).
  { pose proof (wi_old _ _ _ _ _ _ _ _ _ _ _ HW 0%nat i l Hin EL) as E. unfold hv in E. by rewrite End in E. }
  destruct (N.eqb_spec (i_hash nd) th) as [Eth|Eth]; cbn [negb].
  2: { right. split; [|done]. intros (j & Ej & Ha & _). apply Eth. rewrite Hgi. apply (Ha (length dl) i th); [lia|done|done|by rewrite EL]. }
  assert (Hagr : agr (length dl)).
  { intros y j th' Hy Ej Eth' Hs. destruct (decide (y = length dl)) as [->|Hne].
    - rewrite Hi in Ej. injection Ej as <-. rewrite Hhd in Eth'. injection Eth' as <-. congruence.
    - apply (Hpre y j th'); try done. rewrite D1, lookup_app_l in Ej by lia. done. }
  change (N.of_nat 0) with 0. rewrite RootPosition_ok by lia. cbn [bind].
  destruct (decide ((0, i) ∈ T)) as [Hr|Hr].
  { right. split; [intros (j & Ej & _ & _ & Hnr & _); rewrite Hi in Ej; by injection Ej as <-|]. apply trees_elem, is_root_iff in Hr as [_ ->]. by rewrite N.eqb_refl. }
  assert (Hrp : (enc R 0 i =? enc R 0 (2 * (n / 2 ^ (0 + 1)))) = false).
  { rewrite !enc_0. apply N.eqb_neq. intros E. apply Hr, trees_elem, is_root_iff. split; [|done]. rewrite N.bit0_odd, odd_mod. apply N.eqb_eq.
    unfold node in Hnode. change (2 ^ N.of_nat 0) with 1 in Hnode. change (2 ^ (0 + 1)) with 2 in E. clear - E Hnode. dlia. }
  rewrite Hrp. cbn [orb].
  assert (Hi' : inT T 0 (sib i)).
  { destruct (inT_cases _ _ _ Hin) as [?|Hk]; [done|]. by apply inT_sib. }
  assert (Eh : hp T 0 (sib i) = i).
  { destruct (inT_cases _ _ _ Hin) as [?|Hk]; [done|]. rewrite hp_kid; [apply sib_sib|apply trees_disj|by rewrite sib_half]. }
  pose proof (rp_leaf _ _ _ _ HR _ Hi') as Hl. rewrite Eh, El in Hl. unfold nc in Hl. rewrite End in Hl. cbn [niece] in Hl. rewrite Hl, D3, (wi_pm _ _ _ _ _ _ _ _ _ _ _ HW), <- Eth, Hgi.
  destruct (M0 (sib i)) eqn:EM; cbn [orb].
  { right. split; [|done]. intros (j & Ej & _ & _ & _ & Em & _). rewrite Hi in Ej. injection Ej as <-. congruence. }
  destruct (bool_decide (sib i ∈ dl)) eqn:Eb.
  { right. split; [|done]. apply bool_decide_eq_true in Eb. intros (j & Ej & _ & _ & _ & _ & Em & _). rewrite Hi in Ej. injection Ej as <-. by rewrite Htk in Em. }
  apply bool_decide_eq_false in Eb. cbn [mark is_rem orb]. destruct (p_posmap p0 !! g 0%nat i) as [v|] eqn:Ev.
  - right. split; [|done]. intros (j & Ej & _ & _ & _ & _ & _ & Em). rewrite Hi in Ej. injection Ej as <-. congruence.
  - left. split; [|done]. exists i. rewrite Htk, EL. by split_and!.
Qed.

Lemma node_skip i p t ths M x next : WI' p t M -> i ∈ srow n ts 0 -> cs !! N.to_nat x = Some (0%nat, i) -> cmp 0 i = false -> verify_node H p t ths next x = Ok (p, t, ths, next, VGo).
Proof using Hn.
  intros HW His Hx Hc. destruct (wi_w _ _ _ _ _ _ _ _ _ _ _ HW _ _ _ Hx) as (w & Hw & [W1 W2 W3 W4]).
  unfold verify_node. rewrite (vec_get_eq _ _ _ Hw). cbn [bind].
  destruct W4 as (_ & _ & _ & ->); [|by rewrite Hc]. left. apply elem_of_app in His as [Hki|Hki].
  - apply (kid_not_root T 0 i (trees_disj n)). apply trees_under. apply kids_elem, crow_node in Hki. done.
  - apply elem_of_list_filter in Hki as [_ Hki]. apply crow_elem, cmpb_iff in Hki. congruence.
Qed.
Lemma stop_at i ri p t ths M x next dl p1 t1 ths1 next1 v : VI' 0 (i :: ri) p t ths M -> cs !! N.to_nat x = Some (0%nat, i) -> cmp 0 i = true ->
  crow n ts 0 = dl ++ filter (λ j, cmp 0 j = true) (i :: ri) -> ths0 = (hvL (p_heap p) L 0 <$> dl) ++ ths ->
  verify_node H p t ths next x = Ok (p1, t1, ths1, next1, v) -> agr (length dl) -> v = VGo.
Proof using Hn Hts Hlen HR0 Hg Hcs Hsub Hnew.
  intros HV Hx Hc D1 D2 Ev Ha. pose proof (vi_w _ _ _ _ _ _ _ _ _ _ _ _ _ _ _ _ _ HV) as HW. destruct (wi_w _ _ _ _ _ _ _ _ _ _ _ HW _ _ _ Hx) as (w & Hw & [W1 W2 W3 W4]).
  rewrite (crow0 H n Hn ts Hts L0 g Hg cs L Hcs Hsub Hnew), filter_cons_True in D1 by done.
  assert (Hi : ts !! length dl = Some i) by (rewrite D1, lookup_app_r, Nat.sub_diag by done; done).
  destruct W4 as (W4 & W5 & W6 & W7); [by right|]. unfold verify_node in Ev. rewrite (vec_get_eq _ _ _ Hw) in Ev. cbn [bind] in Ev. rewrite W7, Hc in Ev. cbn [negb] in Ev.
  apply bind_inv in Ev as (t2 & _ & Ev).
  assert (Hnode : node n (N.of_nat 0) i) by (by apply (cmp_node n ts)). assert (Hin : inT T 0 i) by (by apply trees_under).
  rewrite W4, (wi_n _ _ _ _ _ _ _ _ _ _ _ HW), leaf_test in Ev by done. cbn [Nat.eqb] in Ev.
  destruct ths as [|th ths].
  { exfalso. rewrite app_nil_r in D2. apply (f_equal length) in D2. rewrite fmap_length, Hlen in D2. apply lookup_lt_Some in Hi. lia. }
  assert (Hhd : ths0 !! length dl = Some th).
  { rewrite D2, lookup_app_r, fmap_length, Nat.sub_diag by (by rewrite fmap_length). done. }
  pose proof (wi_rep _ _ _ _ _ _ _ _ _ _ _ HW) as HR. rewrite W5 in Ev.
  destruct (L0 0%nat i) as [l|] eqn:EL; cbn [pres1] in Ev.
  - pose proof (Hsub _ _ _ EL) as El. destruct (rep_get _ _ _ _ HR _ _ _ Hin El) as [nd End]. rewrite W1, El, (deref_ok _ _ _ End) in Ev. cbn [bind snd fst] in Ev.
    assert (Hgi : i_hash nd = th).
    { pose proof (wi_old _ _ _ _ _ _ _ _ _ _ _ HW 0%nat i l Hin EL) as E. unfold hv in E. rewrite End in E. rewrite E. apply (Ha (length dl) i th); [lia|done|done|by rewrite EL]. }
    rewrite Hgi, N.eqb_refl in Ev. apply bind_inv in Ev as (r & Er & Ev). apply bind_inv in Er as (t3 & _ & Er). apply Ok_inv in Er as <-. cbn beta iota in Ev. cbn [negb] in Ev.
    apply bind_inv in Ev as (s & _ & Ev). apply Ok_inv in Ev. by injection Ev.
  - apply bind_inv in Ev as (nd & _ & Ev). cbn [bind negb] in Ev. apply bind_inv in Ev as (s & _ & Ev). apply Ok_inv in Ev. by injection Ev.
Qed.

Lemma V_row0 is : forall p t ths M next nx xs dn dl, VI' 0 is p t ths M -> (forall j, j ∈ is -> j ∈ srow n ts 0) -> StronglySorted N.lt (dn ++ is) ->
  ids cs 0 xs is -> ids cs 1 next nx -> nxok n ts 0 dn nx -> crow n ts 0 = dl ++ filter (λ j, cmp 0 j = true) is ->
  (bad_from (length dl) /\ V_verify_row H p t ths next xs = Abort) \/ (~ bad_from (length dl) /\ V_verify_row H p t ths next xs = verify_row H p t ths next xs).
Proof using Hn Hts Hlen HR0 Hg Hnd Hcs Hsub Hnew.
  induction is as [|i is IH]; intros p t ths M next nx xs dn dl HV Hin Hso Hxs Hids Hnx Hdl.
  - apply Forall2_nil_inv_r in Hxs as ->. right. split; [|done]. intros (x & Hx & i & Ei & _). apply lookup_lt_Some in Ei.
    rewrite (crow0 H n Hn ts Hts L0 g Hg cs L Hcs Hsub Hnew) in Hdl. rewrite Hdl in Ei. change (filter _ []) with (@nil N) in Ei. rewrite app_nil_r in Ei. lia.
  - apply Forall2_cons_inv_r in Hxs as (x & xs' & Hx & Hxs & ->). cbn [V_verify_row verify_row].
    assert (Hsplit : (forall j, j ∈ dn -> j < i) /\ i ∉ is).
    { clear - Hso. induction dn as [|a dn IHd]; cbn [app] in Hso.
      - split; [by intros j ?%elem_of_nil|]. apply StronglySorted_inv in Hso as [_ Hf]. intros Hi. rewrite Forall_forall in Hf. apply Hf in Hi. lia.
      - apply StronglySorted_inv in Hso as [Hso Hf]. destruct (IHd Hso) as [H1 H2]. split; [|done]. rewrite Forall_forall in Hf.
        intros j [->|Hj]%elem_of_cons; [apply Hf, elem_of_app; right; left|by apply H1]. }
    destruct Hsplit as [Hlt Hi]. assert (His : i ∈ srow n ts 0) by (apply Hin; left). unfold V_verify_node.
    pose proof (verify_node_ok H n Hn ts Hts p0 L0 M0 g prf ths0 HR0 Hg cs L Hnd Hcs Hsub Hnew 0 i is p t ths M next nx x HV His Hi Hx Hids) as Hstep.
    assert (Hnx' : nxok n ts 0 (dn ++ [i]) (upd n ts nx 0 i)) by (by apply (nxok_upd H n Hn ts L0 g Hg cs L Hcs Hsub Hnew)).
    assert (Hso' : StronglySorted N.lt ((dn ++ [i]) ++ is)) by (by rewrite <- app_assoc).
    assert (Hin' : forall j, j ∈ is -> j ∈ srow n ts 0) by (intros j Hj; apply Hin; by right).
    destruct (cmp 0 i) eqn:Hc.
    + (* a target *)
      destruct (vi_leaf _ _ _ _ _ _ _ _ _ _ _ _ _ _ _ _ _ HV) as (dl' & D1 & D2 & D3).
      assert (dl' = dl) as ->. { rewrite D1 in Hdl. by apply app_inv_tail in Hdl. }
      destruct (leaf_check_exact i is p t ths M x dl HV Hx Hc D1 D2 D3) as [[Hb ->]|[Hb ->]]; cbn [bind].
      * left. split; [|done]. by exists (length dl).
      * destruct (verify_node H p t ths next x) as [[[[[p1 t1] ths1] next1] v]| | | |] eqn:Ev; cbn [wp bind] in Hstep |- *; try done.
        assert (Hfrom : bad_from (length dl) <-> bad_from (length (dl ++ [i]))).
        { rewrite app_length. cbn [length]. split; intros (y & Hy & Hby); exists y; (split; [|done]); [|lia]. destruct (decide (y = length dl)) as [->|]; [done|lia]. }
        destruct v.
        -- destruct Hstep as (M1 & HV1 & Hids1). rewrite Hfrom. apply (IH _ _ _ _ _ (upd n ts nx 0 i) _ (dn ++ [i]) (dl ++ [i]) HV1); try done.
           rewrite Hdl, filter_cons_True by done. by rewrite <- app_assoc.
        -- right. split; [|done]. intros (y & Hy & j & _ & Ha & _). assert (E : VStop = VGo); [|done].
           eapply (stop_at i is p t ths M x next dl); [exact HV|done|done|done|done|exact Ev|]. intros z. intros. apply (Ha z); [lia|done..].
        -- right. split; [|done]. intros (y & Hy & j & _ & Ha & _). assert (E : VFalse = VGo); [|done].
           eapply (stop_at i is p t ths M x next dl); [exact HV|done|done|done|done|exact Ev|]. intros z. intros. apply (Ha z); [lia|done..].
    + pose proof (vi_w _ _ _ _ _ _ _ _ _ _ _ _ _ _ _ _ _ HV) as HW.
      rewrite (leaf_check_inner 0 i p t ths M x HW His Hx (or_introl Hc)). rewrite (node_skip i p t ths M x next HW His Hx Hc) in Hstep |- *. cbn [bind wp] in Hstep |- *.
      destruct Hstep as (M1 & HV1 & Hids1). apply (IH _ _ _ _ _ (upd n ts nx 0 i) _ (dn ++ [i]) dl HV1); try done.
      by rewrite Hdl, filter_cons_False by congruence.
Qed.
(** Above the leaves nothing is checked. *)
Lemma V_row_inner k is : forall p t ths M next nx xs dn, k <> O -> VI' k is p t ths M -> (forall j, j ∈ is -> j ∈ srow n ts k) -> StronglySorted N.lt (dn ++ is) ->
  ids cs k xs is -> ids cs (S k) next nx -> nxok n ts k dn nx -> V_verify_row H p t ths next xs = verify_row H p t ths next xs.
Proof using Hn Hts HR0 Hg Hnd Hcs Hsub Hnew.
  induction is as [|i is IH]; intros p t ths M next nx xs dn Hk HV Hin Hso Hxs Hids Hnx.
  - apply Forall2_nil_inv_r in Hxs as ->. done.
  - apply Forall2_cons_inv_r in Hxs as (x & xs' & Hx & Hxs & ->). cbn [V_verify_row verify_row].
    assert (Hsplit : (forall j, j ∈ dn -> j < i) /\ i ∉ is).
    { clear - Hso. induction dn as [|a dn IHd]; cbn [app] in Hso.
      - split; [by intros j ?%elem_of_nil|]. apply StronglySorted_inv in Hso as [_ Hf]. intros Hi. rewrite Forall_forall in Hf. apply Hf in Hi. lia.
      - apply StronglySorted_inv in Hso as [Hso Hf]. destruct (IHd Hso) as [H1 H2]. split; [|done]. rewrite Forall_forall in Hf.
        intros j [->|Hj]%elem_of_cons; [apply Hf, elem_of_app; right; left|by apply H1]. }
    destruct Hsplit as [Hlt Hi]. assert (His : i ∈ srow n ts k) by (apply Hin; left).
    unfold V_verify_node. rewrite (leaf_check_inner k i p t ths M x (vi_w _ _ _ _ _ _ _ _ _ _ _ _ _ _ _ _ _ HV) His Hx (or_intror Hk)). cbn [bind].
    pose proof (verify_node_ok H n Hn ts Hts p0 L0 M0 g prf ths0 HR0 Hg cs L Hnd Hcs Hsub Hnew k i is p t ths M next nx x HV His Hi Hx Hids) as Hstep.
    destruct (verify_node H p t ths next x) as [[[[[p1 t1] ths1] next1] v]| | | |]; cbn [wp bind] in Hstep |- *; try done.
    destruct v; [|done..]. destruct Hstep as (M1 & HV1 & Hids1).
    eapply (IH _ _ _ _ _ (upd n ts nx k i) _ (dn ++ [i])); [done|exact HV1| | |exact Hxs|exact Hids1|by apply (nxok_upd H n Hn ts L0 g Hg cs L Hcs Hsub Hnew)].
    + intros j Hj. apply Hin. by right.
    + by rewrite <- app_assoc.
Qed.
Lemma nxok_nil k : nxok n ts k [] [].
Proof. split; [constructor|]. intros d. split; [by intros ?%elem_of_nil|]. intros (i & ?%elem_of_nil & _). done. Qed.
Lemma V_rows_inner fuel : forall k p t ths M xs, k <> O -> VI' k (vrow n ts k) p t ths M -> ids cs k xs (vrow n ts k) ->
  V_verify_rows H fuel p t ths xs = verify_rows H fuel p t ths xs.
Proof using Hn Hts HR0 Hg Hnd Hcs Hsub Hnew.
  induction fuel as [|fuel IH]; intros k p t ths M xs Hk HV Hids; (destruct xs as [|x xs]; [done|]); [done|].
  cbn [V_verify_rows verify_rows]. pose proof (nxok_nil k) as Hnx0.
  rewrite (V_row_inner k (vrow n ts k) p t ths M [] [] (x :: xs) []); try done.
  2: { apply (vrow_srow n ts k). } 2: { apply vrow_sorted. } 2: { constructor. }
  pose proof (verify_row_ok H n Hn ts Hts p0 L0 M0 g prf ths0 HR0 Hg cs L Hnd Hcs Hsub Hnew k (vrow n ts k) p t ths M [] [] (x :: xs) [] HV) as Hrow.
  specialize (Hrow (vrow_srow n ts k) (vrow_sorted n ts k) Hids ltac:(constructor) Hnx0).
  destruct (verify_row H p t ths [] (x :: xs)) as [[[[[p1 t1] ths1] next1] v]| | | |]; cbn [wp bind] in Hrow |- *; try done.
  destruct v; [|done..]. destruct Hrow as (M1 & nx & HV1 & Hids1 & Hnx). cbn [app] in Hnx. apply nxok_row in Hnx; [|done..]. rewrite Hnx in Hids1.
  apply (IH (S k) p1 t1 ths1 M1); [done|by apply (VI_next H n Hn ts p0 L0 M0 g prf ths0 Hg cs L Hcs Hsub Hnew)|done].
Qed.
Lemma V_rows_exact fuel p t M xs : VI' 0 (vrow n ts 0) p t ths0 M -> ids cs 0 xs (vrow n ts 0) ->
  (bad_from 0 /\ V_verify_rows H (S fuel) p t ths0 xs = Abort) \/ (~ bad_from 0 /\ V_verify_rows H (S fuel) p t ths0 xs = verify_rows H (S fuel) p t ths0 xs).
Proof using Hn Hts Hlen HR0 Hg Hnd Hcs Hsub Hnew.
  intros HV Hids. pose proof (nxok_nil 0) as Hnx0.
  destruct (V_row0 (vrow n ts 0) p t ths0 M [] [] xs [] [] HV (vrow_srow n ts 0) (vrow_sorted n ts 0) Hids ltac:(constructor) Hnx0) as [[Hb E]|[Hb E]].
  { cbn [app vrow]. by rewrite srow_comp. }
  - left. split; [done|]. cbn [V_verify_rows]. destruct xs as [|x xs]; [|by rewrite E]. by cbn [V_verify_row] in E.
  - right. split; [done|]. destruct xs as [|x xs]; [done|]. cbn [V_verify_rows verify_rows]. rewrite E.
    pose proof (verify_row_ok H n Hn ts Hts p0 L0 M0 g prf ths0 HR0 Hg cs L Hnd Hcs Hsub Hnew 0 (vrow n ts 0) p t ths0 M [] [] (x :: xs) [] HV) as Hrow.
    specialize (Hrow (vrow_srow n ts 0) (vrow_sorted n ts 0) Hids ltac:(constructor) Hnx0).
    destruct (verify_row H p t ths0 [] (x :: xs)) as [[[[[p1 t1] ths1] next1] v]| | | |]; cbn [wp bind] in Hrow |- *; try done.
    destruct v; [|done..]. destruct Hrow as (M1 & nx & HV1 & Hids1 & Hnx). cbn [app] in Hnx. apply nxok_row in Hnx; [|done..]. rewrite Hnx in Hids1.
    apply (V_rows_inner fuel 1 p1 t1 ths1 M1); [done|by apply (VI_next H n Hn ts p0 L0 M0 g prf ths0 Hg cs L Hcs Hsub Hnew)|done].
Qed.
End Walk.

Section Verify.
Context (H : hash -> hash -> hash) (n : N) (Hn : n <= 2 ^ 62) (p0 : pollard) (L0 : lmap) (M0 : N -> bool) (g : nat -> N -> hash).
Notation T := (trees n).
Context (Hpn : p_n p0 = n) (HR0 : rep p0 T L0 M0) (Hag : agree p0 T L0 g).
Context (Hg : forall r d, node n (N.of_nat (S r)) d -> g (S r) d = H (g r (2 * d)) (g r (2 * d + 1))).

Lemma VP_Verify_exact bp ths r : m_sorted_targets bp = sortN (m_targets bp) -> P_Verify H p0 bp ths = Ok r ->
  let bad := valid_targets n (m_sorted_targets bp) /\ length ths = length (m_sorted_targets bp) /\ spent n (m_sorted_targets bp) L0 g (m_proof bp) /\
    bad_from n (m_sorted_targets bp) p0 L0 M0 g ths 0 in
  (bad /\ VP_Verify H p0 bp ths = Abort) \/ (~ bad /\ VP_Verify H p0 bp ths = Ok r).
Proof.
  intros Es Er bad. rewrite <- Er. remember (m_sorted_targets bp) as ts eqn:Ets. unfold P_Verify in *. unfold VP_Verify.
  assert (Esz : length ts = length (m_targets bp)) by (rewrite Es; apply Permutation_length, sortN_perm).
  destruct (N.eqb_spec (size ths) (size (m_targets bp))) as [Elen|Elen]; cbn [negb] in *.
  2: { right. split; [|done]. intros (_ & El & _). apply Elen. unfold size. congruence. }
  assert (Hlen : length ths = length ts) by (unfold size in Elen; lia). rewrite Hpn in *.
  unfold bp_CheckSanity in *. rewrite <- Ets in *. destruct (CheckTargetsSanity_iff n ts) as (b & Eb & Hb). rewrite Eb in *. cbn [bind] in *.
  destruct b; cbn [negb bind] in *.
  2: { right. split; [|done]. intros (Hv & _). by apply Hb in Hv. }
  destruct (proj1 Hb eq_refl) as [Hts1 Hts2]. assert (Hts : valid_targets n ts) by done.
  destruct (ProofPositions_ok n Hn ts Hts) as (P & C & EP & HP & _). rewrite EP in *. cbn [bind fst] in *.
  destruct (N.leb_spec (size (m_proof bp)) (size P)) as [Hle|Hle]; cbn [negb] in *.
  2: { right. split; [|done]. intros (_ & _ & Hsp & _). pose proof (spent_length n Hn ts L0 g _ P HP Hsp). lia. }
  destruct (m_targets bp) as [|t0 tl] eqn:Emt.
  { right. split; [|done]. intros (_ & _ & _ & x & _ & i & Ei & _). apply lookup_lt_Some in Ei. cbn [length] in Esz. lia. }
  apply bind_inv in Er as ([[[[p1 t1] rec] xs] ok] & E1 & Er). rewrite E1. cbn [bind].
  assert (HT : wp (Z n ts L0 g (m_proof bp)) (P_CreateProofTree p0 bp) (λ '(p, t, rec, xs, ok), exists cs L k ri, TI n ts L0 k ri t cs L /\ HI n ts p0 L0 M0 g k ri p L /\ RI L0 rec cs L /\
    (spent n ts L0 g (m_proof bp) -> ok = true) /\ ~ halt n ts L0 g (m_proof bp) (Some zero_hash) /\
    (ok = true -> k = O /\ ri = [] /\ ids cs 0 xs (srow n ts 0) /\
       (hon n ts L0 g (m_proof bp) -> forall r i l, needed n ts (N.of_nat r) i -> L r i = Some l -> hv (p_heap p) l = g r i) /\
       takes (sto L0 g <$> belowp n ts (S (N.to_nat (NumRows n)))) (rev (m_proof bp)) ((λ x : nat * N, hvL (p_heap p) L x.1 x.2) <$> belowp n ts (S (N.to_nat (NumRows n)))) []))).
  { apply (CreateProofTree_ok n Hn ts p0 L0 M0 g (m_proof bp)); try done. }
  rewrite E1 in HT. cbn [wp] in HT. destruct HT as (cs & L & k & ri & HT & HH & HRI & Hsp & _ & Hok).
  destruct ok.
  2: { right. split; [|done]. intros (_ & _ & Hs & _). by specialize (Hsp Hs). }
  destruct (Hok eq_refl) as (Hk & Hri & Hids & Hneed & Hgp).
  assert (Hnew : forall r i, cmpb n ts (S r) (i / 2) = true -> is_Some (L r i)) by (eapply walk_new; done).
  assert (HV1 : VI H n ts p0 L0 M0 g (m_proof bp) ths cs L 0 (vrow n ts 0) p1 t1 ths M0) by (eapply walk_init; done).
  assert (Hspent : spent n ts L0 g (m_proof bp)) by (eexists; exact Hgp).
  destruct (V_rows_exact H n Hn ts Hts p0 L0 M0 g (m_proof bp) ths Hlen HR0 Hg cs L (ti_nodup _ _ _ _ _ _ _ _ HT) (walk_cs _ _ _ _ _ _ _ _ HT)
    (hi_sub _ _ _ _ _ _ _ _ _ _ HH) Hnew 65 p1 t1 M0 xs HV1 Hids) as [[Hbad E]|[Hbad E]].
  - left. split; [done|]. rewrite E. done.
  - right. split; [intros (_ & _ & _ & Hb'); exact (Hbad Hb')|]. rewrite E. reflexivity.
Qed.
End Verify.

Lemma C55_exact_lem H f p bp ths r : synced H f p -> proof_wf bp -> P_Verify H p bp ths = Ok r ->
  (unknown_target p bp ths /\ VP_Verify H p bp ths = Abort) \/ (~ unknown_target p bp ths /\ VP_Verify H p bp ths = Ok r).
Proof.
  intros Hs Hwf E. destruct (synced_inv H f p Hs) as (us & ls & Hr & Hh & Hn31 & (Hpn & L0 & M0 & HR0 & Hg0)).
  assert (Hn : size ls <= 2 ^ 62) by (assert (2 ^ 31 <= 2 ^ 62) by done; lia).
  assert (Hiff : unknown_target p bp ths <-> (valid_targets (size ls) (m_sorted_targets bp) /\ length ths = length (m_sorted_targets bp) /\ spent (size ls) (m_sorted_targets bp) L0 (nh H (leaf_at ls)) (m_proof bp) /\
    bad_from (size ls) (m_sorted_targets bp) p L0 M0 (nh H (leaf_at ls)) ths 0)).
  { unfold unknown_target. rewrite (compared_iff H p ls L0 M0 Hn Hpn HR0 Hg0), Hpn. remember (m_sorted_targets bp) as ts eqn:Ets.
    assert (Hrem : forall i, i < size ls -> ~ is_root (size ls) 0 i -> ~ remembers p (sib i) <-> M0 (sib i) = false).
    { intros i Hi Hnr. assert (Hsi : sib i < size ls).
      { apply leaf_node in Hi. apply leaf_node. apply trees_under in Hi. apply trees_under. destruct (inT_cases _ _ _ Hi) as [Hx|Hx]; [by apply trees_elem in Hx|by apply inT_sib]. }
      rewrite (remembers_iff (size ls) p L0 M0 (sib i) Hn Hpn HR0 Hsi). by rewrite not_true_iff_false. }
    split.
    - intros ((Hv & Hl & Hsp) & x & t & h & Ht & Ha & Hrd & Hnr & Hm & Hsb & Hp). split; [done|]. split; [done|]. split; [done|]. pose proof Hv as [_ Hlt]. rewrite Forall_forall in Hlt.
      assert (Htl : t < size ls) by (apply Hlt; by eapply elem_of_list_lookup_2). apply (leaf_read H p ls L0 M0 Hn Hpn HR0 Hg0) in Hrd as [Hs0 ->]; [|done].
      exists x. split; [lia|]. exists t. split; [done|]. split; [exact (proj1 (agreed_iff H p ls L0 M0 Hn Hpn HR0 Hg0 _ _ _ Hv) Ha)|]. split; [done|]. split; [by rewrite trees_elem|]. split; [by apply Hrem|]. done.
    - intros (Hv & Hl & Hsp & x & _ & t & Ht & Ha & Hs0 & Hnr & Hm & Hsb & Hp). split; [done|]. pose proof Hv as [_ Hlt]. rewrite Forall_forall in Hlt.
      assert (Htl : t < size ls) by (apply Hlt; by eapply elem_of_list_lookup_2). rewrite trees_elem in Hnr.
      exists x, t, (nh H (leaf_at ls) 0 t). split; [done|]. split; [exact (proj2 (agreed_iff H p ls L0 M0 Hn Hpn HR0 Hg0 _ _ _ Hv) Ha)|]. split; [by apply (leaf_read H p ls L0 M0 Hn Hpn HR0 Hg0)|].
      split; [done|]. split; [by apply Hrem|]. done. }
  rewrite Hiff. exact (VP_Verify_exact H (size ls) Hn p L0 M0 (nh H (leaf_at ls)) Hpn HR0 Hg0 (nh_step H (size ls) ls) bp ths r Hwf E).
Qed.
