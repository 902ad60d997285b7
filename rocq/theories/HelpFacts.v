(** * HelpFacts: the help message (proofs) *)
From Verif Require Import Base ArgsModel ArgsFacts HelpModel HelpSpec ArgsExamples.
From Coq Require Import String.

Definition entry_of (a : list N * list N) (e : list N * (list N * list N)) : Prop := key_of e.1 a.1 /\ a.1 = (e.1 ++ e.2.1)%list /\ a.2 = e.2.2.

Lemma add_entries adds m m' : AddArgs m adds = Ok m' -> exists es, Forall2 entry_of adds es /\ map_to_list m' ≡ₚ es ++ map_to_list m.
Proof.
  revert m. induction adds as [|[name help] adds IH]; intros m E; cbn [AddArgs] in E.
  { injection E as <-. exists []. split; [constructor|done]. }
  destruct (AddArg m name help) as [m1| | | |] eqn:E1; try discriminate E. cbn [bind] in E. destruct (AddArg_lem m name help) as (key & param & Hn & Hk & Hp & H1 & H2).
  destruct (m !! key) as [x|] eqn:Em; [rewrite H2 in E1 by (by exists x); done|]. rewrite H1 in E1 by done. injection E1 as <-.
  destruct (IH _ E) as (es & Hes & HP). exists ((key, (param, help)) :: es). split.
  - constructor; [|done]. split; [|done]. split; [done|]. cbn [fst]. destruct Hp as [->|[t ->]]; [left; by rewrite app_nil_r in Hn|right; by exists t].
  - rewrite HP, map_to_list_insert by done. cbn [app]. symmetry. apply Permutation_middle.
Qed.
Lemma entry_shown a e : entry_of a e -> HelpMessageOpt (match e.2.1 with [] => e.1 | _ => e.1 ++ e.2.1 end) e.2.2 = shown a.
Proof.
  intros (_ & Hn & Ht). unfold HelpMessageOpt, shown. rewrite Hn, Ht. destruct (e.2.1); [by rewrite app_nil_r|done].
Qed.
Lemma loop_shown adds es usage : Forall2 entry_of adds es -> help_loop usage es = usage ++ mjoin (shown <$> adds).
Proof.
  intros HF. revert usage. induction HF as [|a [k [p t]] adds es He HF IH]; intros usage; cbn [help_loop fmap list_fmap mjoin list_join]; [by rewrite app_nil_r|].
  rewrite IH. pose proof (entry_shown _ _ He) as E. cbn [fst snd] in E. rewrite E. by rewrite <- app_assoc.
Qed.
Lemma help_lem adds m entries : AddArgs ∅ adds = Ok m -> entries ≡ₚ map_to_list m -> exists adds', adds' ≡ₚ adds /\ Forall2 key_of entries.*1 adds'.*1 /\
  GetHelpMessage entries = [79; 112; 116; 105; 111; 110; 115; 10; 10] ++ mjoin (shown <$> adds').
Proof.
  intros E HP. destruct (add_entries _ _ _ E) as (es & Hes & HP'). rewrite map_to_list_empty, app_nil_r in HP'.
  assert (Hx : exists adds', adds' ≡ₚ adds /\ Forall2 entry_of adds' entries).
  { assert (Hq : es ≡ₚ entries) by (by rewrite HP, HP'). clear -Hes Hq. revert adds Hes. induction Hq as [|x l l' _ IH|x y l|l l' l'' _ IH1 _ IH2]; intros adds Hes.
    - exists []. apply Forall2_nil_inv_r in Hes as ->. split; [done|constructor].
    - apply Forall2_cons_inv_r in Hes as (a & adds1 & Ha & H1 & ->). destruct (IH _ H1) as (adds' & Hp & Hf). exists (a :: adds'). split; [by rewrite Hp|by constructor].
    - apply Forall2_cons_inv_r in Hes as (a & adds1 & Ha & H1 & ->). apply Forall2_cons_inv_r in H1 as (b & adds2 & Hb & H2 & ->).
      exists (b :: a :: adds2). split; [constructor|]. constructor; [done|by constructor].
    - destruct (IH1 _ Hes) as (a1 & Hp1 & Hf1). destruct (IH2 _ Hf1) as (a2 & Hp2 & Hf2). exists a2. split; [by rewrite Hp2|done]. }
  destruct Hx as (adds' & Hp & Hf). exists adds'. split; [done|]. split.
  - clear -Hf. induction Hf as [|a e adds es (Hk & _) _ IH]; cbn; [constructor|by constructor].
  - unfold GetHelpMessage. by rewrite (loop_shown _ _ _ Hf).
Qed.
Lemma abort_lem adds name help m : AddArgs ∅ adds = Ok m -> (exists k b, b ∈ adds.*1 /\ key_of k b /\ key_of k name) -> AddArgs ∅ (adds ++ [(name, help)])%list = Abort.
Proof.
  intros E (k & b & Hb & Hkb & Hk). assert (Happ : forall m0 l1 l2, AddArgs m0 (l1 ++ l2) = let* m1 := AddArgs m0 l1 in AddArgs m1 l2).
  { intros m0 l1. revert m0. induction l1 as [|[n h] l1 IH]; intros m0 l2; cbn [AddArgs app]; [done|]. destruct (AddArg m0 n h); cbn [bind]; [apply IH|done..]. }
  rewrite Happ, E. cbn [bind AddArgs]. destruct (add_entries _ _ _ E) as (es & Hes & HP). rewrite map_to_list_empty, app_nil_r in HP.
  destruct (AddArg_lem m name help) as (key & param & Hn & Hk2 & Hp & _ & H2). rewrite H2; [done|].
  assert (Hu : forall k1 k2 n, key_of k1 n -> key_of k2 n -> k1 = k2).
  { intros k1 k2 n [N1 C1] [N2 C2]. revert k2 n N2 C1 C2. induction k1 as [|c k1 IH]; intros k2 n N2 C1 C2.
    - destruct k2 as [|d k2]; [done|]. destruct C1 as [->|[t ->]]; destruct C2 as [C2|[t2 C2]]; try discriminate C2; injection C2 as <- _; exfalso; apply N2; left.
    - destruct k2 as [|d k2].
      + destruct C1 as [->|[t ->]]; destruct C2 as [C2|[t2 C2]]; try discriminate C2; injection C2 as -> _; exfalso; apply N1; left.
      + rewrite not_elem_of_cons in N1, N2. assert (Ecd : c = d) by (destruct C1 as [->|[t ->]]; destruct C2 as [C2|[t2 C2]]; by injection C2). subst d. f_equal.
        apply (IH (proj2 N1) k2 (tail n) (proj2 N2)).
        * destruct C1 as [->|[t ->]]; [by left|right; by exists t].
        * destruct C2 as [->|[t ->]]; [by left|right; by exists t]. }
  assert (key = k) as ->. { apply (Hu _ _ name); [|done]. split; [done|]. destruct Hp as [->|[t ->]]; [left; by rewrite app_nil_r in Hn|right; by exists t]. }
  apply elem_of_list_fmap in Hb as ([b' h] & -> & Hb). apply elem_of_list_lookup in Hb as [i Hi]. destruct (Forall2_lookup_l _ _ _ _ _ Hes Hi) as ([k' [p t]] & Hi' & (Hk' & _)).
  cbn [fst] in *. rewrite (Hu _ _ _ Hkb Hk'). exists (p, t). apply elem_of_map_to_list. rewrite HP. by eapply elem_of_list_lookup_2.
Qed.

Definition adds97 : list (list N * list N) := [(txt "-filter=<r>", txt "F"); (txt "-?", txt "H")].
Definition entries97 : list (list N * (list N * list N)) := [(txt "-?", ([], txt "H")); (txt "-filter", (txt "=<r>", txt "F"))].
Definition run97 (adds : list (list N * list N)) : option (list (list N * (list N * list N))) := match AddArgs ∅ adds with Ok m => Some (map_to_list m) | _ => None end.
Lemma run97_inv adds es : run97 adds = Some es -> exists m, AddArgs ∅ adds = Ok m /\ map_to_list m = es.
Proof. unfold run97. destruct (AddArgs ∅ adds) as [m| | | |]; try done. injection 1 as <-. by exists m. Qed.
Lemma ex97 : exists m, AddArgs ∅ adds97 = Ok m /\ entries97 ≡ₚ map_to_list m.
Proof.
  assert (Hr : run97 adds97 = Some entries97 \/ run97 adds97 = Some (rev entries97)) by (first [left; vm_compute; reflexivity|right; vm_compute; reflexivity]).
  destruct Hr as [Hr|Hr]; apply run97_inv in Hr as (m & E & Em); exists m; (split; [done|rewrite Em]); [done|]. apply Permutation_rev.
Qed.
Lemma key97 : exists k b, b ∈ adds97.*1 /\ key_of k b /\ key_of k (txt "-filter").
Proof.
  assert (Hn : 61 ∉ txt "-filter") by (apply (bool_decide_eq_true_1 _); vm_compute; reflexivity).
  exists (txt "-filter"), (txt "-filter=<r>"). split; [left|]. split; [|split; [exact Hn|by left]]. split; [exact Hn|]. right. by exists (txt "<r>").
Qed.
