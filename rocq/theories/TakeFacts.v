(** * TakeFacts: how the hashes of a proof are used up (proofs) *)
From Verif Require Import Base ProofSpec.

Lemma takes_app st1 st2 hs hs1 hs2 o1 o2 : takes st1 hs o1 hs1 -> takes st2 hs1 o2 hs2 -> takes (st1 ++ st2) hs (o1 ++ o2) hs2.
Proof. intros H1 H2. induction H1; cbn [app]; [done|apply takes_new; auto|apply takes_same; auto|apply takes_skip; auto]. Qed.
Lemma takes_app_inv st1 st2 hs out hs2 : takes (st1 ++ st2) hs out hs2 -> exists o1 o2 hs1, out = o1 ++ o2 /\ takes st1 hs o1 hs1 /\ takes st2 hs1 o2 hs2.
Proof.
  revert hs out. induction st1 as [|x st1 IH]; intros hs out Ht; cbn [app] in Ht.
  - exists [], out, hs. split; [done|]. split; [constructor|done].
  - inversion Ht as [|h st hs0 out0 hs' Ht' E1 E2|h st hs0 out0 hs' Ht' E1 E2|h st hs0 out0 hs' Hne Ht' E1 E2]; subst; apply IH in Ht' as (o1 & o2 & hs1 & -> & H1 & H2).
    + exists (h :: o1), o2, hs1. split; [done|]. split; [by constructor|done].
    + exists (h :: o1), o2, hs1. split; [done|]. split; [by apply takes_same|done].
    + exists (h :: o1), o2, hs1. split; [done|]. split; [by apply takes_skip|done].
Qed.
Lemma takes_det st hs o1 r1 o2 r2 : takes st hs o1 r1 -> takes st hs o2 r2 -> o1 = o2 /\ r1 = r2.
Proof.
  intros H1. revert o2 r2. induction H1 as [hs|h st hs out hs' H1 IH|h st hs out hs' H1 IH|h st hs out hs' Hne H1 IH]; intros o2 r2 H2.
  - by inversion H2.
  - inversion H2; subst. destruct (IH _ _ ltac:(eassumption)) as [-> ->]. done.
  - inversion H2; subst; [destruct (IH _ _ ltac:(eassumption)) as [-> ->]; done|]. cbn [hd] in *. done.
  - inversion H2; subst; [cbn [hd] in *; done|]. destruct (IH _ _ ltac:(eassumption)) as [-> ->]. done.
Qed.
Lemma takes_sublist st hs out r : takes st hs out r -> exists us, us `sublist_of` out /\ hs = us ++ r.
Proof.
  induction 1 as [hs|h st hs out hs' _ (us & Hu & ->)|h st hs out hs' _ (us & Hu & ->)|h st hs out hs' _ _ (us & Hu & ->)].
  - exists []. split; [constructor|done].
  - exists (h :: us). split; [by constructor|done].
  - exists (h :: us). split; [by constructor|done].
  - exists us. split; [by constructor|done].
Qed.
Lemma takes_length st hs out r : takes st hs out r -> length out = length st.
Proof. induction 1; cbn [length]; congruence. Qed.
Lemma takes_out st hs out r : takes st hs out r -> Forall2 (λ x h, x = None \/ x = Some h) st out.
Proof. induction 1; constructor; auto. Qed.
(** A proof that lists every hash is used up entirely. *)
Lemma takes_full st out : Forall2 (λ x h, x = None \/ x = Some h) st out -> takes st out out [].
Proof. induction 1 as [|x h st out [->| ->] _ IH]; [constructor|by constructor|by apply takes_same]. Qed.
Lemma takes_short st hs out : takes st hs out [] -> (length hs <= length st)%nat.
Proof. intros Ht. pose proof (takes_length _ _ _ _ Ht) as El. apply takes_sublist in Ht as (us & Hs & ->). rewrite app_nil_r. apply sublist_length in Hs. lia. Qed.
Lemma takes_stop x st out r : takes (x :: st) [] out r -> x <> None /\ x <> Some 0.
Proof. intros Ht. inversion Ht; subst. cbn [hd] in *. split; congruence. Qed.
Lemma halts_takes st hs x out r : x = None \/ x = Some 0 -> halts st hs x -> ~ takes st hs out r.
Proof.
  intros Hx (vs & rs & o & -> & Hv) Ht. apply takes_app_inv in Ht as (o1 & o2 & hs1 & _ & H1 & H2).
  destruct (takes_det _ _ _ _ _ _ Hv H1) as [_ <-]. apply takes_stop in H2. destruct Hx, H2; congruence.
Qed.
Lemma halts_inj st hs x y : x = None \/ x = Some 0 -> y = None \/ y = Some 0 -> halts st hs x -> halts st hs y -> x = y.
Proof.
  intros Hx Hy (vs & rs & o & -> & Hv) (ws & rs' & o' & E & Hw).
  assert (Hstep : forall (a b : list (option N)) x y rs rs' o o', a ++ x :: rs = b ++ y :: rs' -> (length a < length b)%nat -> (x = None \/ x = Some 0) -> takes a hs o [] -> takes b hs o' [] -> False).
  { clear. intros a b x y rs rs' o o' E Hlt Hx Ha Hb.
    assert (Eb : exists k, b = a ++ x :: k).
    { clear - E Hlt. revert b E Hlt. induction a as [|z a IH]; intros [|w b] E Hlt; cbn [length app] in *; [lia| |lia|].
      - injection E as <- _. by exists b.
      - injection E as <- E. destruct (IH b E ltac:(lia)) as [k ->]. by exists k. }
    destruct Eb as [k ->]. apply takes_app_inv in Hb as (o1 & o2 & hs1 & _ & H1 & H2). destruct (takes_det _ _ _ _ _ _ Ha H1) as [_ <-].
    apply takes_stop in H2. destruct Hx, H2; congruence. }
  destruct (lt_eq_lt_dec (length vs) (length ws)) as [[Hlt|Heq]|Hlt].
  - exfalso. by eapply (Hstep vs ws).
  - clear - E Heq. revert ws E Heq. induction vs as [|z vs IH]; intros [|w ws] E Heq; cbn [length app] in *; try done; [by injection E|]. injection E as _ E. apply (IH ws); [done|lia].
  - exfalso. symmetry in E. by eapply (Hstep ws vs).
Qed.
(** Storing more does no harm. *)
Lemma takes_more st st' hs out r : takes st hs out r -> Forall2 (λ x y, x = None \/ x = y) st st' -> Forall2 (λ y h, y = None \/ y = Some h) st' out -> takes st' hs out r.
Proof.
  intros Ht. revert st'. induction Ht as [hs|h st hs out hs' H1 IH|h st hs out hs' H1 IH|h st hs out hs' Hne H1 IH]; intros st' Hm Ho.
  - apply Forall2_nil_inv_l in Hm as ->. constructor.
  - apply Forall2_cons_inv_l in Hm as (y & l & _ & Hm & ->). apply Forall2_cons in Ho as [[->| ->] Ho]; [by apply takes_new, IH|by apply takes_same, IH].
  - apply Forall2_cons_inv_l in Hm as (y & l & [?| <-] & Hm & ->); [done|]. apply Forall2_cons in Ho as [_ Ho]. by apply takes_same, IH.
  - apply Forall2_cons_inv_l in Hm as (y & l & [?| <-] & Hm & ->); [done|]. apply Forall2_cons in Ho as [_ Ho]. by apply takes_skip; [|apply IH].
Qed.
