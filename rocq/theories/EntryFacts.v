(** * EntryFacts: what the position map of a pollard says after a modification (proofs) *)
From stdpp Require Import sorting.
From Verif Require Import Base StateModel CodecModel ForestModel PollardModel PosSpec PosFacts PathFacts MerkleSpec CodecSpec CodecFacts TargetFacts ForestFacts
  RowFacts TransformFacts SpecFacts RemoveFacts ForestInv AddFacts ForestSpec HistFacts ProofSpec ProveFacts PollardSpec PollardRep PollardOps PollardAdd EntrySpec PollardRemove PollardRows PollardInit PollardCreate
  PollardVerify PollardVerifyMain PollardPrune PollardHist PollardProps PollardCount PollardRecall PosmapFacts ForestMore.
From Coq Require Import ZifyBool ZifyNat ZifyN.
Ltac Zify.zify_post_hook ::= idtac.

Section Entry.
Context (H : hash -> hash -> hash).

Lemma entry_modified f p bp ths p1 (adds : list leaf) f' p' sws h x y : synced H f p -> verifies H f p bp ths true p1 ->
  f_n f + size adds < 2 ^ 31 + size (m_sorted_targets bp) ->
  F_Modify H f adds (m_sorted_targets bp) = Ok (true, f') -> P_Modify H p1 adds (m_sorted_targets bp) = Ok (true, p') ->
  Transform (f_n f) (m_sorted_targets bp) = Ok sws -> h ∉ adds.*1 ->
  f_posmap f !! h = Some x -> p_posmap p !! h = Some x -> f_posmap f' !! h = Some y ->
  (p_posmap p' !! h = Some y \/ (P_Read p' y = Ok None /\ p_posmap p' !! h = Some (moved_by (first_row sws) x))) /\
  (adds = [] -> m_sorted_targets bp <> [] -> P_Read p' y = Ok None -> p_posmap p' !! h = Some (moved_by (first_row sws) x)).
Proof.
  intros Hs Hv Hb EF EP ET Hna Hfx Hpx Hfy. assert (H62 : 2 ^ 31 + 2 ^ 31 <= 2 ^ 62) by done.
  pose proof (C44_verify_lem H f p bp ths p1 h Hs Hv) as [Hv1 Hv2].
  assert (Hp1 : p_posmap p1 !! h = Some x) by (destruct (decide (h ∈ ths)); [by rewrite Hv1|by rewrite Hv2]). clear Hv1 Hv2 Hpx.
  destruct (verified H f p bp ths p1 Hs Hv) as (us & ls & Hr & Hh & Hi & Hn & Hts & Hrd & Hths & _). pose proof Hh as [Hfn Hgl].
  assert (Hr' : reachable H f' []) by (eapply reach_modify; [exact Hr| |exact EF]; done). rewrite Hfn in Hb, ET.
  pose proof (C03_lem H f us ls adds _ f' Hr Hh Hb (or_introl EF)) as Hh'. destruct (reachable_holds H f' [] _ Hr' Hh') as (Hi' & Hn' & _). pose proof (inv_NoDup H f' _ Hi') as Hnd'.
  pose proof (inv_NoDup H f _ Hi) as Hnd. pose proof Hh' as [Hfn' Hgl'].
  pose proof (valid_size H _ _ Hts) as Hsz. apply PReady_mark in Hrd as [M HM].
  apply (C07_lem H f us _ _ Hr) in Hfx as [Hx Ex]. rewrite Hfn in Hx. rewrite (Hgl x Hx) in Ex. injection Ex as Ex.
  apply (C07_lem H f' [] _ _ Hr') in Hfy as [Hy Ey]. rewrite Hfn' in Hy. rewrite (Hgl' y Hy) in Ey. injection Ey as Ey.
  remember (m_sorted_targets bp) as ts eqn:Ets.
  assert (Hrem : exists q M1, P_Remove H p1 ts = Ok (true, q) /\ PMark H q (spec_remove ls ts) M1 /\ size (spec_remove ls ts) = size ls - size ts /\
    (x ∉ ts -> exists z, z < size (spec_remove ls ts) /\ leaf_at (spec_remove ls ts) z = h /\
      ((P_Read q z = Ok (Some h) \/ ts = []) /\ p_posmap q !! h = Some z \/ P_Read q z = Ok None /\ p_posmap q !! h = Some (moved_by (first_row sws) x)))).
  { destruct (decide (ts = [])) as [->|Hne].
    - exists p1, M. split; [done|]. rewrite spec_remove_nil. destruct HM as (Hpn & L & HR & Hg & _). split; [split; [done|]; by exists L|]. change (size (@nil N)) with 0. split; [lia|].
      intros _. exists x. split; [done|]. split; [done|]. left. split; [by right|done].
    - destruct (P_Remove_mark H p1 ls _ M (PReadyM_stock _ _ _ _ _ HM) ltac:(lia) Hts Hne) as (q & M1 & E1 & HP1 & Hs1 & _ & _ & _ & _ & HE). exists q, M1. split; [done|]. split; [done|]. split; [done|].
      intros Hxn. rewrite <- Ex in Hp1. destruct (HE Hnd sws x ET Hx Hxn Hp1) as (z & Hz & Ez & Hc). rewrite Ex in *. exists z. split; [done|]. split; [done|].
      destruct Hc as [[H1 H2]|Hc]; [left; split; [by left|done]|by right]. }
  destruct Hrem as (q & M1 & ER & HPq & Hs1 & HE). unfold P_Modify in EP. rewrite ER in EP. cbn [bind fst snd negb] in EP.
  destruct (P_Add H q adds) as [q'| | | |] eqn:EA; try done. cbn [bind] in EP. injection EP as <-.
  destruct (P_Add_posmap H adds q _ M1 q' HPq ltac:(lia) EA) as [A1 _].
  destruct (P_Add_mark H adds q _ M1 HPq ltac:(lia)) as (q'' & M2 & EA' & _ & _ & _ & _ & Hun). rewrite EA in EA'. apply Ok_inv in EA' as <-.
  (* the leaf is one of the old ones *)
  assert (Hxn : x ∉ ts).
  { intros Hxin. assert (Hin' : h ∈ spec_remove ls ts ++ adds.*1) by (rewrite <- Ey; by apply leaf_at_elem). apply elem_of_app in Hin' as [Hin'|?]; [|done].
    rewrite spec_remove_perm in Hin'. apply survivors_iff in Hin' as (i & Hi1 & Hni & Ei). rewrite <- Ex in Ei. apply leaf_at_inj in Ei as ->; done. }
  destruct (HE Hxn) as (z & Hz & Ez & Hc). assert (Ezy : z = y).
    { apply (leaf_at_inj (spec_remove ls ts ++ adds.*1)); [done|unfold size in *; rewrite app_length; lia|done|]. rewrite Ey, (leaf_at_app1 H) by done. done. }
  subst z. assert (Hnf : h ∉ (filter (λ a : leaf, a.2 = true) adds).*1).
    { intros (a & -> & [_ Ha]%elem_of_list_filter)%elem_of_list_fmap. apply Hna. by apply elem_of_list_fmap_1. }
  rewrite (A1 h Hnf). split.
  - destruct Hc as [[_ Hc]|[Hc1 Hc2]]; [by left|right]. split; [by apply Hun|done].
  - intros -> Hne. assert (Eq : q' = q) by (apply Ok_inv in EA; done). rewrite Eq. intros Er. destruct Hc as [[[Hc| ->] _]|[_ Hc]]; [rewrite Er in Hc; discriminate Hc|done|done].
Qed.

Lemma entry_modified_lem f p bp ths v (adds : list leaf) f' p' sws h x y : synced H f p -> verifies H f p bp ths true v ->
  f_n f + size adds < 2 ^ 31 + size (m_sorted_targets bp) ->
  F_Modify H f adds (m_sorted_targets bp) = Ok (true, f') -> P_Modify H v adds (m_sorted_targets bp) = Ok (true, p') ->
  Transform (f_n f) (m_sorted_targets bp) = Ok sws -> h ∉ adds.*1 ->
  f_posmap f !! h = Some x -> p_posmap p !! h = Some x -> f_posmap f' !! h = Some y ->
  p_posmap p' !! h = Some y \/ (P_Read p' y = Ok None /\ p_posmap p' !! h = Some (moved_by (first_row sws) x)).
Proof. intros. by eapply entry_modified. Qed.
Lemma entry_deleted_lem f p bp ths v f' p' sws h x y : synced H f p -> verifies H f p bp ths true v -> m_sorted_targets bp <> [] ->
  F_Modify H f [] (m_sorted_targets bp) = Ok (true, f') -> P_Modify H v [] (m_sorted_targets bp) = Ok (true, p') ->
  Transform (f_n f) (m_sorted_targets bp) = Ok sws ->
  f_posmap f !! h = Some x -> p_posmap p !! h = Some x -> f_posmap f' !! h = Some y ->
  (P_Read p' y = Ok (Some h) /\ p_posmap p' !! h = Some y) \/ (P_Read p' y = Ok None /\ p_posmap p' !! h = Some (moved_by (first_row sws) x)).
Proof.
  intros Hs Hv Hne EF EP ET Ex Epx Ey. destruct (synced_inv H f p Hs) as (us & ls & Hr & [Hfn _] & Hn & _).
  assert (Hb : f_n f + size (@nil leaf) < 2 ^ 31 + size (m_sorted_targets bp)) by (change (size (@nil leaf)) with 0; lia).
  destruct (entry_modified f p bp ths v [] f' p' sws h x y Hs Hv Hb EF EP ET (not_elem_of_nil h) Ex Epx Ey) as [H1 H2].
  assert (Hs' : synced H f' p') by (by eapply sy_modify). destruct (synced_inv H f' p' Hs') as (us' & ls' & Hr' & [Hfn' Hgl'] & Hn' & (Hpn & L & M & HR & Hg)).
  apply (C07_lem H f' us' _ _ Hr') in Ey as [Hy Ey]. rewrite Hfn' in Hy. rewrite (Hgl' y Hy) in Ey. injection Ey as Ey.
  assert (H62 : 2 ^ 31 <= 2 ^ 62) by done. assert (Hnd : node (size ls') (N.of_nat 0) y) by (unfold node; change (2 ^ N.of_nat 0) with 1; lia).
  pose proof (P_Read_ok (size ls') ltac:(lia) p' L M 0%nat y Hpn HR Hnd) as Hrd. change (N.of_nat 0) with 0 in Hrd. rewrite enc_0 in Hrd.
  assert (Hrd' : P_Read p' y = Ok None \/ P_Read p' y = Ok (Some h)).
  { rewrite Hrd. destruct (L 0%nat y) as [l|] eqn:El; [right|by left]. cbn [fmap option_fmap option_map]. do 2 f_equal. rewrite (Hg 0%nat y l); [exact Ey|by apply trees_under|done]. }
  clear Hrd. rename Hrd' into Hrd.
  destruct Hrd as [Hrd|Hrd]; [right|left].
  - split; [exact Hrd|]. by apply H2.
  - split; [exact Hrd|]. destruct H1 as [H1|[H1 _]]; [exact H1|]. rewrite Hrd in H1. discriminate H1.
Qed.

(** A position that was followed is right. *)
Lemma followed_synced h f p : followed H h f p -> synced H f p.
Proof. induction 1; [by eapply sy_verify|by eapply sy_modify|by eapply sy_verify|by eapply sy_modify]. Qed.
Lemma followed_right h f p : followed H h f p -> p_posmap p !! h = f_posmap f !! h.
Proof.
  induction 1 as [f p bp ths p' Hs Hv Hh|f p bp ths p1 adds f' p' Hs Hv Hb EF EP Hh|f p bp ths b p' Hf IH Hv|f p bp ths p1 adds f' p' sws x y Hf IH Hv Hb EF EP ET Hna Ex Ey Hc].
  - by apply (C44_verify_lem H f p bp ths p' h Hs Hv).
  - by apply (C44_modify_lem H f p bp ths p1 adds f' p' h Hs Hv Hb EF EP).
  - pose proof (followed_synced _ _ _ Hf) as Hs. destruct b.
    + destruct (C44_verify_lem H f p bp ths p' h Hs Hv) as [H1 H2]. destruct (decide (h ∈ ths)); [by apply H1|]. rewrite H2 by done. exact IH.
    + destruct (synced_inv H f p Hs) as (us & ls & _ & Hh & _). destruct Hv as (Hwf & E & _). destruct (C29_pos_lem H f p bp ths p' ls Hs Hh Hwf E) as [-> _]. exact IH.
  - rewrite Ex in IH. destruct (entry_modified f p bp ths p1 adds f' p' sws h x y (followed_synced _ _ _ Hf) Hv Hb EF EP ET Hna Ex IH Ey) as [[H1|[H1 H2]] _]; [by rewrite H1|].
    destruct Hc as [Hc|Hc]; [rewrite H1 in Hc; discriminate Hc|]. by rewrite H2, Hc.
Qed.
Lemma followed_prove f p lo hi hs : recalls H f p lo hi -> (forall h, h ∈ hs -> h ∈ lo /\ followed H h f p) -> P_Prove p hs = F_Prove f hs.
Proof. intros Hr Hhs. apply (C30_recall_lem H f p lo hi hs Hr). intros h Hh. destruct (Hhs h Hh) as [H1 H2]. split; [done|]. by apply followed_right. Qed.
End Entry.
