(** * PollardFinal: selecting the new roots of a Pollard (proofs) *)
From stdpp Require Import sorting.
From Verif Require Import Base StateModel ForestModel PollardModel PosSpec PosFacts PathFacts MerkleSpec ForestFacts RowFacts
  TransformFacts RemoveFacts ForestInv PollardRep PollardOps.
From Coq Require Import ZifyBool ZifyNat ZifyN.
Ltac Zify.zify_post_hook ::= idtac.
Ltac dlia := zify; Z.div_mod_to_equations; lia.

(** ** Reading looks only at rows above *)
Lemma read_loop_ext p T L M h' n bits rec k : rep p T L M -> forall r i pos rp,
  inT T (k + r) (i / 2 ^ N.of_nat k) -> (k <= 64)%nat ->
  (forall m, m < N.of_nat k -> N.testbit bits m = negb (N.testbit i m)) ->
  (forall r' x l, (r < r')%nat -> inT T r' x -> L r' x = Some l -> h' !! l = p_heap p !! l) ->
  read_loop k h' n bits (L (k + r)%nat (i / 2 ^ N.of_nat k)) (L (k + r)%nat (hp T (k + r) (i / 2 ^ N.of_nat k))) pos rp rec =
  read_loop k (p_heap p) n bits (L (k + r)%nat (i / 2 ^ N.of_nat k)) (L (k + r)%nat (hp T (k + r) (i / 2 ^ N.of_nat k))) pos rp rec.
Proof.
  intros HR. pose proof (rp_disj _ _ _ _ HR) as Hd. induction k as [|k IH]; intros r i pos rp Hi Hk Hb Hh; [done|].
  cbn [read_loop]. rewrite shr64_ok by lia. cbn [bind].
  assert (Ebit : N.odd (bits / 2 ^ N.of_nat k) = negb (N.odd (i / 2 ^ N.of_nat k))).
  { rewrite <- !N.shiftr_div_pow2, <- !N.bit0_odd, !N.shiftr_spec', N.add_0_l. apply Hb. lia. }
  rewrite Ebit, negb_involutive.
  assert (E2 : i / 2 ^ N.of_nat (S k) = i / 2 ^ N.of_nat k / 2).
  { replace (N.of_nat (S k)) with (N.of_nat k + 1) by lia. apply div_pow_S. }
  remember (i / 2 ^ N.of_nat k) as x eqn:Ex. rewrite E2 in *. cbn [Nat.add] in *.
  destruct (L (S (k + r)) (hp T (S (k + r)) (x / 2))) as [l|] eqn:El; [|done].
  destruct (rep_get p T L M HR _ _ _ (inT_hp _ _ _ Hd Hi) El) as [nd End].
  assert (End' : h' !! l = Some nd).
  { rewrite <- End. apply (Hh (S (k + r)) (hp T (S (k + r)) (x / 2))); [lia|by apply inT_hp|done]. }
  rewrite (deref_ok _ _ _ End), (deref_ok _ _ _ End'). cbn [bind snd].
  destruct (Child n pos (if N.odd x then 1 else 0)) as [pos'| | | |]; try done. cbn [bind].
  assert (E3 : niece nd (N.odd x) = L (k + r)%nat x).
  { rewrite <- (rp_kid _ _ _ _ HR (k + r) x Hi), El. symmetry. by apply nc_some. }
  assert (E4 : niece nd (negb (N.odd x)) = L (k + r)%nat (hp T (k + r) x)).
  { rewrite hp_kid by done. rewrite <- (rp_kid _ _ _ _ HR (k + r) (sib x)) by (by rewrite sib_half).
    rewrite sib_half, odd_sib, El. symmetry. by apply nc_some. }
  rewrite E3, E4, Ex. apply IH; [rewrite <- Ex; by apply inT_kid|lia|intros m Hm; apply Hb; lia|done].
Qed.

Section Final.
Context (n : N) (Hn : n <= 2 ^ 62).
Notation R := (NumRows n).
Notation T := (trees n).
Let Hd : disj T := trees_disj n.

Lemma ReadSiblings_ext p L M h' r i : p_n p = n -> rep p T L M -> node n (N.of_nat r) i ->
  (forall r' x l, (r < r')%nat -> inT T r' x -> L r' x = Some l -> h' !! l = p_heap p !! l) ->
  P_ReadSiblings (p_set_heap p h') (enc R (N.of_nat r) i) false = P_ReadSiblings p (enc R (N.of_nat r) i) false.
Proof.
  intros Hpn HR Hi Hh. unfold P_ReadSiblings. cbn [p_n p_set_heap p_roots p_heap]. rewrite Hpn.
  destruct (C20_path_lem n R T (N.of_nat r) i Hn ltac:(by apply NumRows_height) (forest_root_rows n) Hi)
    as (j & tr & k & bits & E & _ & Hr & Hl & Hk & Hb).
  rewrite E. cbn [bind]. rewrite RootPositions_ok by done. fold (trees n). cbn [bind].
  assert (E1 : vec_get ((λ t : N * N, enc R t.1 t.2) <$> T) (N.of_nat j) = Ok (enc R tr k)).
  { unfold vec_get. rewrite Nat2N.id, list_lookup_fmap, Hl. done. }
  rewrite E1. cbn [bind].
  assert (E2 : exists rt, vec_get (p_roots p) (N.of_nat j) = Ok rt /\ pr_node rt = L (N.to_nat tr) k).
  { pose proof (rp_roots _ _ _ _ HR) as Hr0. apply (f_equal (fun l => l !! j)) in Hr0. rewrite !list_lookup_fmap, Hl in Hr0.
    destruct (p_roots p !! j) as [rt|] eqn:Er; [|done]. cbn [fmap option_fmap option_map fst snd] in Hr0. apply (inj Some) in Hr0.
    exists rt. split; [|done]. unfold vec_get. by rewrite Nat2N.id, Er. }
  destruct E2 as (rt & -> & Ert). cbn [bind]. rewrite Ert.
  assert (Ht : (tr, k) ∈ T) by (by eapply elem_of_list_lookup_2). assert (Htn := Ht). apply trees_node in Htn as [Htn _]. cbn [fst snd] in Htn.
  remember (N.to_nat (tr - N.of_nat r)) as m eqn:Em.
  assert (Etr : tr = N.of_nat (m + r)) by lia. assert (Ekm : k = i / 2 ^ N.of_nat m) by (rewrite <- Hk, Em; f_equal; f_equal; lia).
  replace (N.to_nat tr) with (m + r)%nat by lia. rewrite Etr, Ekm in *.
  pose proof (node_row _ _ _ Htn) as Hrow. pose proof (R62 n Hn) as HR62.
  pose proof (read_loop_ext p T L M h' n bits false m HR r i (enc R (N.of_nat (m + r)) (i / 2 ^ N.of_nat m)) []) as Hx.
  rewrite hp_root in Hx by done. apply Hx; [by apply inT_root|lia|intros x Hx'; apply Hb; lia|done].
Qed.

(** ** The heap while roots are selected *)
Definition rt (L : lmap) (t : N * N) : option loc := L (N.to_nat t.1) t.2.
Record selected (p : pollard) (L : lmap) (done : list (N * N)) (h' : heap) : Prop := {
  sl_same : forall l, (forall t, t ∈ done -> rt L t <> Some l) -> h' !! l = p_heap p !! l;
  sl_some : forall l : loc, is_Some (h' !! l) <-> is_Some (p_heap p !! l);
  sl_hash : forall l : loc, hv h' l = hv (p_heap p) l;
  sl_kids : forall t c, t ∈ done -> nc h' (rt L t) c = nc (p_heap p) (L (N.to_nat t.1) (hp T (N.to_nat t.1) t.2)) c }.

Lemma select_one p L M don h' t : p_n p = n -> rep p T L M -> node n t.1 t.2 -> is_Some (rt L t) ->
  (forall u, u ∈ don -> u.1 < t.1 /\ inT T (N.to_nat u.1) u.2) -> selected p L don h' ->
  exists h2, p_select_root (p_set_heap p h') (enc R t.1 t.2) = Ok (p_set_heap p h2, PRoot (rt L t) (enc R t.1 t.2) vflag0) /\
    selected p L (don ++ [t]) h2.
Proof.
  intros Hpn HR Ht [l El] Hdon Hs. unfold rt in El. remember (N.to_nat t.1) as r eqn:Er. assert (Et : t.1 = N.of_nat r) by lia.
  rewrite Et in Ht |- *. unfold rt. rewrite <- Er.
  assert (HtT : inT T r t.2) by (by apply trees_under).
  assert (Hfar : forall r' x l', (r <= r')%nat -> inT T r' x -> L r' x = Some l' -> forall u, u ∈ don -> rt L u <> Some l').
  { intros r' x l' Hr' Hx Hl' u Hu E. destruct (Hdon u Hu) as [H1 H2]. unfold rt in E.
    destruct (rp_inj _ _ _ _ HR _ _ _ _ _ H2 Hx E Hl') as [E1 _]. lia. }
  assert (Hsame : forall r' x l', (r <= r')%nat -> inT T r' x -> L r' x = Some l' -> h' !! l' = p_heap p !! l').
  { intros r' x l' Hr' Hx Hl'. apply (sl_same _ _ _ _ Hs). by eapply Hfar. }
  unfold p_select_root.
  rewrite (ReadSiblings_ext p L M h' r t.2 Hpn HR Ht) by (intros r' x l' Hr'; apply Hsame; lia).
  destruct (ReadSiblings_ok n Hn p L M false r t.2 Hpn HR Ht) as (k & q & E & _). rewrite E. cbn [bind].
  destruct (rep_get p T L M HR _ _ _ HtT El) as [nd End].
  assert (End' : h' !! l = Some nd) by (rewrite <- End; by apply (Hsame r t.2)).
  assert (HhT := inT_hp _ _ _ Hd HtT).
  rewrite El. cbn [p_heap p_set_heap]. rewrite (deref_ok _ _ _ End'). cbn [bind fst snd].
  assert (Hsel : forall (h2 : heap) nd2, h2 !! l = Some nd2 -> (forall x : loc, x <> l -> h2 !! x = h' !! x) -> i_hash nd2 = i_hash nd ->
     (forall c, niece nd2 c = nc (p_heap p) (L r (hp T r t.2)) c) -> selected p L (don ++ [t]) h2).
  { intros h2 nd2 E1 E2 E3 E4. split.
    - intros x Hx. assert (Hxl : x <> l).
      { intros ->. apply (Hx t); [apply elem_of_app; right; by left|]. unfold rt. by rewrite <- Er. }
      rewrite E2 by done. apply (sl_same _ _ _ _ Hs). intros u Hu. apply Hx. apply elem_of_app. by left.
    - intros x. destruct (decide (x = l)) as [->|Hxl]; [rewrite E1, End; split; eauto|].
      rewrite E2 by done. apply (sl_some _ _ _ _ Hs).
    - intros x. destruct (decide (x = l)) as [->|Hxl]; [unfold hv; by rewrite E1, End|].
      rewrite <- (sl_hash _ _ _ _ Hs). unfold hv. by rewrite E2.
    - intros u c [Hu|Hu]%elem_of_app.
      + rewrite <- (sl_kids _ _ _ _ Hs u c Hu). unfold nc. destruct (rt L u) as [x|] eqn:Ex; [|done].
        rewrite E2; [done|]. intros ->. by apply (Hfar r t.2 l ltac:(lia) HtT El u Hu).
      + apply elem_of_list_singleton in Hu as ->. unfold rt. rewrite <- Er, El. by rewrite (nc_some _ _ _ _ E1). }
  destruct (L r (hp T r t.2)) as [s|] eqn:Es.
  - destruct (rep_get p T L M HR _ _ _ HhT Es) as [ns Ens].
    assert (Ens' : h' !! s = Some ns) by (rewrite <- Ens; by apply (Hsame r (hp T r t.2))).
    rewrite (deref_ok _ _ _ Ens'). cbn [bind fst snd]. rewrite (deref_ok _ l (set_niece nd false (i_l ns))) by (by rewrite heap_eq).
    cbn [bind fst snd]. eexists. split; [done|]. eapply Hsel; [apply heap_eq| | |].
    + intros x Hx. rewrite !heap_ne by done. done.
    + by rewrite !hash_set_niece.
    + intros c. rewrite (nc_some _ _ _ _ Ens). by destruct c.
  - unfold chop_node. rewrite (deref_ok _ _ _ End'). cbn [bind fst snd]. eexists. split; [done|]. eapply Hsel; [apply heap_eq| | |].
    + intros x Hx. by rewrite !heap_ne by done.
    + done.
    + intros c. by destruct c.
Qed.

Lemma select_all p L M : p_n p = n -> rep p T L M -> forall ts don h' acc,
  StronglySorted (fun a b => a.1 < b.1) ts ->
  (forall t, t ∈ ts -> node n t.1 t.2 /\ is_Some (rt L t)) ->
  (forall u t, u ∈ don -> t ∈ ts -> u.1 < t.1) -> (forall u, u ∈ don -> inT T (N.to_nat u.1) u.2) ->
  selected p L don h' ->
  exists h2, p_select_roots (p_set_heap p h') ((λ t : N * N, enc R t.1 t.2) <$> ts) acc =
      Ok (p_set_heap p h2, rev ((λ t : N * N, PRoot (rt L t) (enc R t.1 t.2) vflag0) <$> ts) ++ acc) /\
    selected p L (don ++ ts) h2.
Proof.
  intros Hpn HR. induction ts as [|t ts IH]; intros don h' acc Hsort Hts Hdon HdT Hs.
  - exists h'. rewrite app_nil_r. done.
  - rewrite fmap_cons. cbn [p_select_roots]. destruct (Hts t ltac:(by left)) as [Htn Hts'].
    destruct (select_one p L M don h' t Hpn HR Htn Hts') as (h1 & E1 & Hs1); [|done|].
    { intros u Hu. split; [apply Hdon; [done|by left]|by apply HdT]. }
    rewrite E1. cbn [bind fst snd]. apply StronglySorted_inv in Hsort as [Hsort Hall]. rewrite Forall_forall in Hall.
    destruct (IH (don ++ [t]) h1 (PRoot (rt L t) (enc R t.1 t.2) vflag0 :: acc) Hsort) as (h2 & E2 & Hs2).
    + intros u Hu. apply Hts. by right.
    + intros u v [Hu|Hu]%elem_of_app Hv; [apply Hdon; [done|by right]|]. apply elem_of_list_singleton in Hu as ->. by apply Hall.
    + intros u [Hu|Hu]%elem_of_app; [by apply HdT|]. apply elem_of_list_singleton in Hu as ->. apply trees_under. by rewrite N2Nat.id.
    + done.
    + exists h2. rewrite E2. rewrite <- app_assoc in Hs2. split; [|done]. rewrite fmap_cons. cbn [rev]. by rewrite <- app_assoc.
Qed.

Lemma delete_loop_ok p L M l : p_n p = n -> rep p T L M -> (forall x, x ∈ l -> x < n) -> forall (m : gmap N N),
  exists m', foldM (fun (m : gmap N N) pos => let* h := P_Read p pos in
                                Ok (match h with Some v => delete v m | None => m end)) m l = Ok m' /\
    forall h v, m' !! h = Some v <-> m !! h = Some v /\ forall y, y ∈ l -> P_Read p y <> Ok (Some h).
Proof.
  intros Hpn HR. induction l as [|x l IH]; intros Hl m; [exists m; split; [done|]; intros h v; split; [intros Hh; split; [done|]; by intros y ?%elem_of_nil|by intros [? _]]|]. cbn [foldM].
  pose proof (P_Read_ok n Hn p L M 0 x Hpn HR) as E. change (N.of_nat 0) with 0 in E. rewrite enc_0 in E.
  rewrite E by (unfold node; change (2 ^ 0) with 1; specialize (Hl x ltac:(by left)); lia). cbn [bind].
  destruct (IH ltac:(intros y Hy; apply Hl; by right) (match hv (p_heap p) <$> L 0%nat x with Some v => delete v m | None => m end)) as (m' & Em & Hm).
  exists m'. split; [exact Em|]. intros h w. split.
  2: { intros [Hh Hno]. apply Hm. split; [|intros y Hy; apply Hno; by right]. specialize (Hno x ltac:(by left)).
    rewrite E in Hno by (unfold node; change (2 ^ 0) with 1; specialize (Hl x ltac:(by left)); lia).
    destruct (hv (p_heap p) <$> L 0%nat x) as [v|]; [|done]. rewrite lookup_delete_ne; [done|congruence]. }
  intros Hh. apply Hm in Hh as [H1 H2].
  assert (Hne : (hv (p_heap p) <$> L 0%nat x) <> Some h /\ m !! h = Some w).
  { destruct (hv (p_heap p) <$> L 0%nat x) as [v|]; [|done]. destruct (decide (v = h)) as [->|Hv]; [by rewrite lookup_delete in H1|].
    rewrite lookup_delete_ne in H1 by done. split; [congruence|done]. }
  split; [apply Hne|]. intros y [->|Hy]%elem_of_cons; [|by apply H2]. rewrite E by (unfold node; change (2 ^ 0) with 1; specialize (Hl x ltac:(by left)); lia).
  intros [= Ex]. by apply (proj1 Hne).
Qed.

Lemma sorted_rev {A} (P : A -> A -> Prop) l : StronglySorted (fun a b => P b a) l -> StronglySorted P (rev l).
Proof.
  induction 1 as [|x l Hs IH Hf]; [constructor|]. cbn [rev]. rewrite Forall_forall in Hf.
  clear Hs. assert (Hin : forall y, y ∈ rev l -> P y x) by (intros y Hy; apply Hf; by apply elem_of_list_In, in_rev, elem_of_list_In).
  clear Hf. induction (rev l) as [|y l' IH']; cbn [app]; [constructor; constructor|].
  apply StronglySorted_inv in IH as [Hs Hf]. constructor.
  - apply IH'; [done|]. intros z Hz. apply Hin. by right.
  - apply Forall_app. split; [done|]. constructor; [|constructor]. apply Hin. by left.
Qed.

Lemma FinalizeRemove_rep p L M g n' : p_n p = n -> rep p T L M -> agree p T L g -> n' <= n ->
  (forall t, t ∈ trees n' -> is_Some (rt L t)) ->
  exists p', P_FinalizeRemove p n' = Ok p' /\ p_n p' = n /\ rep p' (trees n') L M /\ agree p' (trees n') L g /\
    forall h v, p_posmap p' !! h = Some v <-> p_posmap p !! h = Some v /\ forall y, n' <= y -> y < n -> P_Read p y <> Ok (Some h).
Proof.
  intros Hpn HR Hg Hle Hnew. unfold P_FinalizeRemove. rewrite Hpn.
  destruct (delete_loop_ok p L M (nseq n' (n - n')) Hpn HR ltac:(intros x Hx%nseq_elem; lia) (p_posmap p)) as (m & Em & Hm). rewrite Em. cbn [bind].
  assert (Hpw : n' < 2 ^ (R + 1)) by (rewrite pow_S; pose proof (NumRows_bound n); pose proof (pow_pos R); lia).
  rewrite RootPositionsFor_ok by done. cbn [bind].
  rewrite root_rows_trim by (pose proof (NumRows_mono n' n Hle); lia). fold (trees n').
  assert (HTT : forall r i, inT (trees n') r i -> inT T r i).
  { intros r i. rewrite !trees_under. unfold node. lia. }
  destruct (select_all (p_set_posmap p m) L M Hpn (rep_posmap _ _ _ _ m HR) (rev (trees n')) [] (p_heap p) []) as (h2 & E2 & Hs).
  { apply sorted_rev. apply sorted_root_rows. }
  { intros t Ht%elem_of_list_In%in_rev%elem_of_list_In. split; [|by apply Hnew]. apply trees_node in Ht as [Ht _]. unfold node in *. lia. }
  { by intros u t ?%elem_of_nil. }
  { by intros u ?%elem_of_nil. }
  { split; [done|done|done|]. by intros t c ?%elem_of_nil. }
  rewrite <- map_rev. rewrite app_nil_l, app_nil_r in *.
  change (map (λ t : N * N, enc (NumRows n) t.1 t.2) (rev (trees n'))) with ((λ t : N * N, enc (NumRows n) t.1 t.2) <$> rev (trees n')).
  replace (p_set_heap (p_set_posmap p m) (p_heap p)) with (p_set_posmap p m) in E2 by done.
  rewrite E2. cbn [bind fst snd]. eexists. split; [done|]. split; [done|].
  assert (Hin : forall t, t ∈ rev (trees n') <-> t ∈ trees n').
  { intros t. rewrite !elem_of_list_In, <- in_rev. done. }
  (* the nieces *)
  assert (Hkids : forall r x c, inT (trees n') r x -> nc h2 (L r (hp (trees n') r x)) c = nc (p_heap p) (L r (hp T r x)) c).
  { intros r x c Hx. destruct (decide ((N.of_nat r, x) ∈ trees n')) as [Hr|Hr].
    - rewrite (hp_root (trees n')) by done. pose proof (sl_kids _ _ _ _ Hs (N.of_nat r, x) c (proj2 (Hin _) Hr)) as E.
      unfold rt in E. cbn [fst snd] in E. rewrite Nat2N.id in E. exact E.
    - destruct (inT_cases _ _ _ Hx) as [?|Hk]; [done|]. rewrite (hp_kid (trees n')) by (apply trees_disj || done).
      rewrite (hp_kid T) by (done || by apply HTT). unfold nc. destruct (L r (sib x)) as [l|] eqn:El; [|done].
      rewrite (sl_same _ _ _ _ Hs); [done|]. intros t Ht E. apply Hin in Ht. unfold rt in E.
      assert (Ht' : (N.of_nat (N.to_nat t.1), t.2) ∈ trees n') by (rewrite N2Nat.id; by destruct t).
      destruct (rp_inj _ _ _ _ HR (N.to_nat t.1) t.2 r (sib x) l) as [Er Ei]; [by apply HTT, inT_root|by apply HTT, inT_sib|done|done|].
      rewrite Er, Ei in Ht'. apply (kid_not_root (trees n') r (sib x) (trees_disj n')); [by rewrite sib_half|done]. }
  split; [split|split]; cbn [p_heap p_roots p_set_roots p_set_heap p_set_posmap p_next p_posmap].
  - apply trees_disj.
  - change (rev ?l) with (rev l). rewrite <- (map_rev _ (rev (trees n'))), rev_involutive.
    change (map ?f (trees n')) with (f <$> trees n'). rewrite <- list_fmap_compose. apply list_fmap_ext. done.
  - intros r i Hr. specialize (Hnew _ Hr). unfold rt in Hnew. cbn [fst snd] in Hnew. by rewrite Nat2N.id in Hnew.
  - intros r i l Hi Hl. destruct (rp_dom _ _ _ _ HR r i l (HTT _ _ Hi) Hl) as (? & ? & ?). split_and!; [done..|]. by apply (sl_some _ _ _ _ Hs).
  - intros r i r' i' l Hi Hi'. apply (rp_inj _ _ _ _ HR); by apply HTT.
  - intros r x Hx. rewrite Hkids by done. apply (rp_kid _ _ _ _ HR). by apply HTT.
  - intros i Hi. rewrite Hkids by done. apply (rp_leaf _ _ _ _ HR). by apply HTT.
  - intros i Hi. rewrite Hkids by done. apply (rp_leaf' _ _ _ _ HR). by apply HTT.
  - apply (rp_next _ _ _ _ HR).
  - intros r i l Hi Hl. cbn [p_heap p_set_roots p_set_heap p_set_posmap]. rewrite (sl_hash _ _ _ _ Hs). apply Hg; [by apply HTT|done].
  - intros h' v. rewrite Hm. split; intros [H1 H2]; (split; [done|]); [intros y Hy1 Hy2; apply H2; apply nseq_elem; lia|intros y Hy%nseq_elem; apply H2; lia].
Qed.
End Final.
