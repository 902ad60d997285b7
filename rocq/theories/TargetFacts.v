(** * TargetFacts: CheckTargetsSanity (proofs) *)
From Verif Require Import Base StateModel PosSpec PosFacts.
From Coq Require Import ZifyBool ZifyNat ZifyN.
Ltac Zify.zify_post_hook ::= Z.div_mod_to_equations.

Lemma sorted_no_dupes_iff l : sorted_no_dupes l = true <-> StronglySorted N.lt l.
Proof.
  split.
  - intros H. apply Sorted_StronglySorted; [intros x y z; lia|].
    induction l as [|x [|y l] IH]; [constructor|repeat constructor|].
    change ((x <? y) && sorted_no_dupes (y :: l) = true) in H. apply andb_true_iff in H as [H1 H2].
    constructor; [by apply IH|constructor; lia].
  - induction 1 as [|x l Hs IH Hf]; [done|]. destruct l as [|y l]; [done|].
    change ((x <? y) && sorted_no_dupes (y :: l) = true). inversion_clear Hf. rewrite IH. apply andb_true_iff. split; [lia|done].
Qed.

Lemma sorted_length l a n : StronglySorted N.lt l -> Forall (fun t => a <= t < n) l -> size l <= n - a.
Proof.
  intros Hs. revert a. induction Hs as [|x l Hs IH Hf]; intros a Ha; [unfold size; simpl; lia|].
  inversion_clear Ha as [|? ? Hx Hl]. specialize (IH (x + 1)). unfold size in *. simpl length.
  assert (Forall (fun t => x + 1 <= t < n) l).
  { apply Forall_forall. intros t Ht. rewrite Forall_forall in Hf, Hl.
    specialize (Hf t Ht). specialize (Hl t Ht). lia. }
  specialize (IH H). lia.
Qed.
Lemma valid_targets_size n ts : valid_targets n ts -> size ts <= n.
Proof.
  intros [Hs Hf]. pose proof (sorted_length ts 0 n Hs). rewrite N.sub_0_r in *. apply H.
  eapply Forall_impl; [done|]. intros; simpl in *; lia.
Qed.

Lemma sorted_last l x : StronglySorted N.lt l -> last l = Some x -> Forall (fun t => t <= x) l.
Proof.
  induction 1 as [|y l Hs IH Hf]; intros Hl; [done|].
  destruct l as [|z l]; [injection Hl as ->; repeat constructor; lia|].
  change (last (y :: z :: l)) with (last (z :: l)) in Hl. specialize (IH Hl).
  constructor; [|done]. inversion_clear IH. inversion_clear Hf. lia.
Qed.

Lemma CheckTargetsSanity_iff n ts :
  exists b, CheckTargetsSanity n ts = Ok b /\ (b = true <-> valid_targets n ts).
Proof.
  destruct ts as [|t ts]; [exists true; split; [done|]; split; [|done]; intros _; split; constructor|].
  unfold CheckTargetsSanity. destruct (N.ltb_spec n (size (t :: ts))).
  { exists false. split; [done|]. split; [done|]. intros ?%valid_targets_size. lia. }
  unfold IsSortedNoDupes. cbn [bind].
  destruct (sorted_no_dupes (t :: ts)) eqn:Hs; cbn [negb].
  2: { exists false. split; [done|]. split; [done|]. intros [Hv _].
       apply sorted_no_dupes_iff in Hv. congruence. }
  apply sorted_no_dupes_iff in Hs. unfold vec_back.
  destruct (last (t :: ts)) as [x|] eqn:Hl; [|by apply last_None in Hl].
  cbn [bind]. exists (negb (n <=? x)). split; [done|]. split.
  - intros Hx. split; [done|]. eapply Forall_impl; [by eapply sorted_last|]. intros; simpl in *; lia.
  - intros [_ Hf]. apply last_Some_elem_of in Hl. rewrite Forall_forall in Hf. specialize (Hf x Hl). lia.
Qed.

Lemma CheckTargetsSanity_true n ts : CheckTargetsSanity n ts = Ok true <-> valid_targets n ts.
Proof. destruct (CheckTargetsSanity_iff n ts) as (b & -> & <-). split; [by intros [=]|by intros ->]. Qed.
