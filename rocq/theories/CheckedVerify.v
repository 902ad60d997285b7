(** * CheckedVerify: when the checks in Verify hold (proofs) *)
From stdpp Require Import sorting.
From Verif Require Import Base StateModel CodecModel ForestModel PollardModel CheckedModel PosSpec PosFacts PathFacts MerkleSpec CodecSpec CodecFacts TargetFacts ForestFacts
  RowFacts TransformFacts SpecFacts RemoveFacts ForestInv AddFacts ForestSpec HistFacts ProofSpec TakeFacts ProveFacts PollardSpec PollardRep PollardOps PollardAdd PollardRemove PollardRows PollardInit PollardCreate
  PollardVerify PollardVerifyMain PollardPrune PollardHist PollardProps PollardCount PosmapFacts PollardRecall MemoryFacts CheckedPollard.
From Coq Require Import ZifyBool ZifyNat ZifyN.
Ltac Zify.zify_post_hook ::= idtac.
Ltac dlia := zify; Z.div_mod_to_equations; lia.

(** The walk up the proof tree, in the situation of [PollardVerify]. *)
Section Walk.
Context (H : hash -> hash -> hash) (n : N) (Hn : n <= 2 ^ 62) (ts : list N) (Hts : valid_targets n ts).
Context (p0 : pollard) (L0 : lmap) (M0 : N -> bool) (g : nat -> N -> hash) (prf ths0 : list hash).
Context (HR0 : rep p0 (trees n) L0 M0).
Context (Hg : forall r d, node n (N.of_nat (S r)) d -> g (S r) d = H (g r (2 * d)) (g r (2 * d + 1))).
Notation R := (NumRows n).
Notation T := (trees n).
Notation cmp := (cmpb n ts).
Context (cs : list (nat * N)) (L : lmap).
Context (Hnd : NoDup cs) (Hcs : forall r j, (r, j) ∈ cs -> (N.of_nat r, j) ∈ T \/ cmp (S r) (j / 2) = true).
Context (Hsub : forall r i l, L0 r i = Some l -> L r i = Some l) (Hnew : forall r i, cmp (S r) (i / 2) = true -> is_Some (L r i)).
Notation WI' := (WI n ts p0 L0 M0 g cs L).
Notation VI' := (VI H n ts p0 L0 M0 g prf ths0 cs L).
(** A cached leaf is a root, or has the remember marker, or is in the position map. *)
Context (HC : forall i, inT T 0 i -> (0, i) ∉ T -> is_Some (L0 0%nat i) -> M0 (sib i) = true \/ is_Some (p_posmap p0 !! g 0%nat i)).

Lemma leaf_check_safe k i p t ths M x : WI' p t M -> i ∈ srow n ts k -> cs !! N.to_nat x = Some (k, i) -> leaf_check p t ths x = Ok tt.
Proof.
  intros HW His Hx. destruct (wi_w _ _ _ _ _ _ _ _ _ _ _ HW _ _ _ Hx) as (w & Hw & [W1 W2 W3 W4]).
  unfold leaf_check. rewrite (vec_get_eq _ _ _ Hw). cbn [bind].
  destruct (cmp k i) eqn:Hc.
  2: { destruct W4 as (_ & _ & _ & ->); [|done]. left. apply elem_of_app in His as [Hk|Hk].
       - apply (kid_not_root T k i (trees_disj n)). apply trees_under. apply kids_elem, crow_node in Hk. done.
       - apply elem_of_list_filter in Hk as [_ Hk]. apply crow_elem, cmpb_iff in Hk. congruence. }
  destruct W4 as (W4 & W5 & W6 & W7); [by right|]. rewrite W7. cbn [negb orb].
  assert (Hnode : node n (N.of_nat k) i) by (by apply (cmp_node n ts)).
  assert (Hin : inT T k i) by (by apply trees_under).
  rewrite W4, (wi_n _ _ _ _ _ _ _ _ _ _ _ HW), leaf_test by done. destruct k as [|k]; cbn [Nat.eqb negb]; [|done].
  destruct ths as [|th ths]; [done|]. cbn [assert_ bind]. rewrite W5. destruct (L0 0%nat i) as [l|] eqn:EL; cbn [pres1 negb]; [|done].
  pose proof (Hsub _ _ _ EL) as El. pose proof (wi_rep _ _ _ _ _ _ _ _ _ _ _ HW) as HR.
  destruct (rep_get _ _ _ _ HR _ _ _ Hin El) as [nd End]. rewrite W1, El, (deref_ok _ _ _ End). cbn [bind snd].
  destruct (N.eqb_spec (i_hash nd) th) as [<-|]; cbn [negb]; [|done].
  assert (Hgi : i_hash nd = g 0%nat i).
  { pose proof (wi_old _ _ _ _ _ _ _ _ _ _ _ HW 0%nat i l Hin EL) as E. unfold hv in E. by rewrite End in E. }
  change (N.of_nat 0) with 0. rewrite RootPosition_ok by lia. cbn [bind].
  destruct (decide ((0, i) ∈ T)) as [Hr|Hr].
  { apply trees_elem, is_root_iff in Hr as [_ ->]. by rewrite N.eqb_refl. }
  destruct (HC i Hin Hr ltac:(by rewrite EL)) as [HM|[v Hv]].
  - assert (Hi' : inT T 0 (sib i)).
    { destruct (inT_cases _ _ _ Hin) as [?|Hk]; [done|]. by apply inT_sib. }
    pose proof (rp_leaf _ _ _ _ HR _ Hi') as Hl. rewrite (wi_M _ _ _ _ _ _ _ _ _ _ _ HW _ HM) in Hl. cbn [mark] in Hl.
    assert (Eh : hp T 0 (sib i) = i).
    { destruct (inT_cases _ _ _ Hin) as [?|Hk]; [done|]. rewrite hp_kid; [apply sib_sib|apply trees_disj|by rewrite sib_half]. }
    rewrite Eh, El in Hl. unfold nc in Hl. rewrite End in Hl. cbn [niece] in Hl. rewrite Hl. cbn [is_rem]. rewrite N.eqb_refl, orb_true_r. done.
  - rewrite (wi_pm _ _ _ _ _ _ _ _ _ _ _ HW), Hgi, Hv, orb_true_r. done.
Qed.
Lemma V_row_same k is : forall p t ths M next nx xs dn, VI' k is p t ths M -> (forall j, j ∈ is -> j ∈ srow n ts k) -> StronglySorted N.lt (dn ++ is) ->
  ids cs k xs is -> ids cs (S k) next nx -> nxok n ts k dn nx ->
  V_verify_row H p t ths next xs = verify_row H p t ths next xs.
Proof.
  induction is as [|i is IH]; intros p t ths M next nx xs dn HV Hin Hso Hxs Hids Hnx.
  - apply Forall2_nil_inv_r in Hxs as ->. done.
  - apply Forall2_cons_inv_r in Hxs as (x & xs' & Hx & Hxs & ->). cbn [V_verify_row verify_row].
    assert (Hsplit : (forall j, j ∈ dn -> j < i) /\ i ∉ is).
    { clear - Hso. induction dn as [|a dn IHd]; cbn [app] in Hso.
      - split; [by intros j ?%elem_of_nil|]. apply StronglySorted_inv in Hso as [_ Hf]. intros Hi. rewrite Forall_forall in Hf. apply Hf in Hi. lia.
      - apply StronglySorted_inv in Hso as [Hso Hf]. destruct (IHd Hso) as [H1 H2]. split; [|done]. rewrite Forall_forall in Hf.
        intros j [->|Hj]%elem_of_cons; [apply Hf, elem_of_app; right; left|by apply H1]. }
    destruct Hsplit as [Hlt Hi]. assert (His : i ∈ srow n ts k) by (apply Hin; left).
    unfold V_verify_node. rewrite (leaf_check_safe k i p t ths M x (vi_w _ _ _ _ _ _ _ _ _ _ _ _ _ _ _ _ _ HV) His Hx). cbn [bind].
    pose proof (verify_node_ok H n Hn ts Hts p0 L0 M0 g prf ths0 HR0 Hg cs L Hnd Hcs Hsub Hnew k i is p t ths M next nx x HV His Hi Hx Hids) as Hstep.
    destruct (verify_node H p t ths next x) as [[[[[p1 t1] ths1] next1] v]| | | |]; cbn [wp bind] in Hstep |- *; try done.
    destruct v; [|done..]. destruct Hstep as (M1 & HV1 & Hids1).
    eapply (IH _ _ _ _ _ _ _ (dn ++ [i])); [exact HV1| | |exact Hxs|exact Hids1|by apply (nxok_upd H n Hn ts L0 g Hg cs L Hcs Hsub Hnew)].
    + intros j Hj. apply Hin. by right.
    + by rewrite <- app_assoc.
Qed.
Lemma V_rows_same fuel : forall k p t ths M xs, VI' k (vrow n ts k) p t ths M -> ids cs k xs (vrow n ts k) ->
  V_verify_rows H fuel p t ths xs = verify_rows H fuel p t ths xs.
Proof.
  induction fuel as [|fuel IH]; intros k p t ths M xs HV Hids; (destruct xs as [|x xs]; [done|]); [done|].
  cbn [V_verify_rows verify_rows].
  assert (Hnx0 : nxok n ts k [] []).
  { split; [constructor|]. intros d. split; [by intros ?%elem_of_nil|]. intros (i & ?%elem_of_nil & _). done. }
  rewrite (V_row_same k (vrow n ts k) p t ths M [] [] (x :: xs) []); try done.
  2: { apply (vrow_srow n ts k). } 2: { apply vrow_sorted. } 2: { constructor. }
  pose proof (verify_row_ok H n Hn ts Hts p0 L0 M0 g prf ths0 HR0 Hg cs L Hnd Hcs Hsub Hnew k (vrow n ts k) p t ths M [] [] (x :: xs) [] HV) as Hrow.
  specialize (Hrow (vrow_srow n ts k) (vrow_sorted n ts k) Hids ltac:(constructor) Hnx0).
  destruct (verify_row H p t ths [] (x :: xs)) as [[[[[p1 t1] ths1] next1] v]| | | |]; cbn [wp bind] in Hrow |- *; try done.
  destruct v; [|done..]. destruct Hrow as (M1 & nx & HV1 & Hids1 & Hnx). cbn [app] in Hnx. apply nxok_row in Hnx; [|done..]. rewrite Hnx in Hids1.
  apply (IH (S k) p1 t1 ths1 M1); [by apply (VI_next H n Hn ts p0 L0 M0 g prf ths0 Hg cs L Hcs Hsub Hnew)|done].
Qed.
End Walk.

Section Verify.
Context (H : hash -> hash -> hash) (n : N) (Hn : n <= 2 ^ 62) (p0 : pollard) (L0 : lmap) (M0 : N -> bool) (g : nat -> N -> hash).
Notation T := (trees n).
Context (Hpn : p_n p0 = n) (HR0 : rep p0 T L0 M0) (Hag : agree p0 T L0 g).
Context (Hg : forall r d, node n (N.of_nat (S r)) d -> g (S r) d = H (g r (2 * d)) (g r (2 * d + 1))).
Context (HC : forall i, inT T 0 i -> (0, i) ∉ T -> is_Some (L0 0%nat i) -> M0 (sib i) = true \/ is_Some (p_posmap p0 !! g 0%nat i)).

Lemma VP_Verify_same bp ths r : m_sorted_targets bp = sortN (m_targets bp) -> P_Verify H p0 bp ths = Ok r -> VP_Verify H p0 bp ths = Ok r.
Proof.
  intros Es Er. rewrite <- Er. remember (m_sorted_targets bp) as ts eqn:Ets. unfold P_Verify in *. unfold VP_Verify.
  destruct (N.eqb_spec (size ths) (size (m_targets bp))) as [Elen|Elen]; cbn [negb] in *; [|done]. rewrite Hpn in *.
  unfold bp_CheckSanity in *. rewrite <- Ets in *. destruct (CheckTargetsSanity_iff n ts) as (b & Eb & Hb). rewrite Eb in *. cbn [bind] in *.
  destruct b; cbn [negb bind] in *; [|done].
  destruct (proj1 Hb eq_refl) as [Hts1 Hts2]. assert (Hts : valid_targets n ts) by done.
  apply bind_inv in Er as (sane & E0 & Er). rewrite E0. cbn [bind]. destruct (negb sane); [done|]. destruct (m_targets bp); [done|].
  apply bind_inv in Er as ([[[[p1 t1] rec] xs] ok] & E1 & Er). rewrite E1. cbn [bind].
  destruct ok; [|done].
  assert (Hsame : V_verify_rows H 66 p1 t1 ths xs = verify_rows H 66 p1 t1 ths xs).
  2: { rewrite Hsame. reflexivity. }
  assert (Hlen : length ths = length ts).
  { rewrite Es. unfold size in Elen. rewrite (Permutation_length (sortN_perm _)). lia. }
  assert (HT : wp (Z n ts L0 g (m_proof bp)) (P_CreateProofTree p0 bp) (λ '(p, t, rec, xs, ok), exists cs L k ri, TI n ts L0 k ri t cs L /\ HI n ts p0 L0 M0 g k ri p L /\ RI L0 rec cs L /\
    (spent n ts L0 g (m_proof bp) -> ok = true) /\ ~ halt n ts L0 g (m_proof bp) (Some zero_hash) /\
    (ok = true -> k = O /\ ri = [] /\ ids cs 0 xs (srow n ts 0) /\
       (hon n ts L0 g (m_proof bp) -> forall r i l, needed n ts (N.of_nat r) i -> L r i = Some l -> hv (p_heap p) l = g r i) /\
       takes (sto L0 g <$> belowp n ts (S (N.to_nat (NumRows n)))) (rev (m_proof bp)) ((λ x : nat * N, hvL (p_heap p) L x.1 x.2) <$> belowp n ts (S (N.to_nat (NumRows n)))) []))).
  { apply (CreateProofTree_ok n Hn ts p0 L0 M0 g (m_proof bp)); try done. }
  rewrite E1 in HT. cbn [wp] in HT. destruct HT as (cs & L & k & ri & HT & HH & HRI & _ & _ & Hok). destruct (Hok eq_refl) as (Hk & Hri & Hids & Hneed & Hgp).
  assert (Hnew : forall r i, cmpb n ts (S r) (i / 2) = true -> is_Some (L r i)) by (eapply walk_new; done).
  assert (HV1 : VI H n ts p0 L0 M0 g (m_proof bp) ths cs L 0 (vrow n ts 0) p1 t1 ths M0) by (eapply walk_init; done).
  exact (V_rows_same H n Hn ts Hts p0 L0 M0 g (m_proof bp) ths HR0 Hg cs L (ti_nodup _ _ _ _ _ _ _ _ HT) (walk_cs _ _ _ _ _ _ _ _ HT)
    (hi_sub _ _ _ _ _ _ _ _ _ _ HH) Hnew HC 66 0 p1 t1 ths M0 xs HV1 Hids).
Qed.
End Verify.

Lemma sib_or i j : j / 2 = i / 2 -> j = i \/ j = sib i.
Proof. intros E. unfold sib. rewrite even_mod. destruct (N.eqb_spec (i mod 2) 0); dlia. Qed.
Lemma VP_Verify_known H f p lo hi bp ths r : recalls H f p lo hi -> (forall h, h ∈ hi -> is_Some (p_posmap p !! h)) -> proof_wf bp ->
  P_Verify H p bp ths = Ok r -> VP_Verify H p bp ths = Ok r.
Proof.
  intros Hr Hk Hwf. destruct (recalls_tight H f p lo hi Hr) as (us & ls & M & Hre & Hls & Hn & [HP HT] & HM).
  assert (H62 : size ls <= 2 ^ 62) by (assert (2 ^ 31 <= 2 ^ 62) by done; lia). pose proof HP as (Hpn & L0 & HR0 & Hg0).
  apply (PTight_iff p (size ls) L0 M M H62 Hpn HR0) in HT.
  apply (VP_Verify_same H (size ls) H62 p L0 M (nh H (leaf_at ls)) Hpn HR0 Hg0 (nh_step H (size ls) ls)); [|done].
  intros i Hi Hnr Hl. destruct (inT_cases _ _ _ Hi) as [?|Hu]; [done|]. destruct (HT 0%nat i Hu Hl) as (j & Hj & Ej).
  change (2 ^ N.of_nat 1) with 2 in Ej. destruct (sib_or i j Ej) as [->| ->]; [right|by left].
  assert (Hlt : i < size ls).
  { apply trees_under in Hi. unfold node in Hi. change (2 ^ N.of_nat 0) with 1 in Hi. lia. }
  apply Hk. by apply HM.
Qed.
Lemma VP_Verify_settled H f p s bp ths r : recalls H f p s s -> proof_wf bp -> P_Verify H p bp ths = Ok r -> VP_Verify H p bp ths = Ok r.
Proof. intros Hr. apply (VP_Verify_known H f p s s bp ths r Hr). apply (recalls_keys H f p s s Hr). Qed.
