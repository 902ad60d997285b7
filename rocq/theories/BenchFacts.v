(** * BenchFacts: the shuffle and the benchmark VerifyElementsPollard (proofs) *)
From stdpp Require Import sorting.
From Verif Require Import Base StateModel CodecModel ForestModel PollardModel FuzzModel UnitModel BenchModel PosSpec PosFacts PosmapFacts CodecSpec CodecFacts MerkleSpec TargetFacts ForestFacts RowFacts SpecFacts RemoveFacts ForestInv ForestSpec HistFacts
  ProofSpec ProveFacts CommitFacts DiskFacts PollardInit PollardSpec PollardRemove PollardHist PollardProps ForestExamples PollardExamples SpentFacts FuzzFacts UnitFacts.
From Coq Require Import ZifyBool ZifyNat ZifyN.
Ltac Zify.zify_post_hook ::= idtac.

(** ** random_unique *)
Section Unique.
Context {A : Type}.
Implicit Types (l dn td : list A).

(** What follows the chosen element after one round. *)
Definition after td (j : nat) : list A := match td with [] => [] | x :: _ => drop 1 (<[j:=x]> td) end.

(** One round: the element number [j] of the rest comes first. *)
Lemma swap_first td (x y : A) t j : td = x :: t -> td !! j = Some y -> exists t', <[0%nat:=y]> (<[j:=x]> td) = y :: t' /\ y :: t' ≡ₚ td /\ t' = after td j.
Proof.
  intros -> Hj. destruct j as [|j]; cbn [lookup list_lookup] in Hj.
  - injection Hj as ->. by exists t.
  - exists (<[j:=x]> t). split; [done|]. split; [|done]. apply elem_of_list_split_length in Hj as (t1 & t2 & -> & ->).
    rewrite insert_app_r_alt by done. rewrite Nat.sub_diag. cbn [insert list_insert]. by rewrite <- !Permutation_middle, Permutation_swap.
Qed.
Lemma unique_step rnd dn td b left num : b = size dn -> left = size td -> td <> [] -> exists y t',
  td !! N.to_nat (rnd b mod left) = Some y /\ y :: t' ≡ₚ td /\ t' = after td (N.to_nat (rnd b mod left)) /\
  unique_loop rnd b left (S num) (dn ++ td) = unique_loop rnd (b + 1) (left - 1) num ((dn ++ [y]) ++ t').
Proof.
  intros Hb Hl Hne. destruct td as [|x t]; [done|]. set (td := x :: t) in *. assert (Hpos : left <> 0) by (subst left td; unfold size; cbn [length]; lia).
  pose proof (N.mod_lt (rnd b) left Hpos) as Hlt. set (j := rnd b mod left) in *. destruct (lookup_lt_is_Some_2 td (N.to_nat j)) as [y Hy]; [subst left; unfold size in Hlt; lia|].
  destruct (swap_first td x y t _ eq_refl Hy) as (t' & Et & Hp & Ea). exists y, t'. split; [done|]. split; [done|]. split; [done|]. cbn [unique_loop].
  destruct (left =? 0) eqn:E0; [apply N.eqb_eq in E0; lia|]. cbv zeta. fold j.
  assert (Hbl : N.to_nat b = length dn) by (subst b; unfold size; lia). replace (N.to_nat (b + j)) with (length dn + N.to_nat j)%nat by lia. rewrite Hbl.
  rewrite (lookup_app_r dn td (length dn)) by lia. rewrite Nat.sub_diag. change (td !! 0%nat) with (Some x). cbv iota beta.
  rewrite lookup_app_r by lia. replace (length dn + N.to_nat j - length dn)%nat with (N.to_nat j) by lia. rewrite Hy.
  rewrite insert_app_r. replace (length dn) with (length dn + 0)%nat at 1 by lia. rewrite insert_app_r, Et, <- (app_assoc dn). done.
Qed.
Lemma unique_ok rnd num : forall dn td b left, b = size dn -> left = size td -> (num <= length td)%nat -> exists td', unique_loop rnd b left num (dn ++ td) = Ok (dn ++ td') /\ td' ≡ₚ td.
Proof.
  induction num as [|num IH]; intros dn td b left Hb Hl Hn; [by exists td|].
  destruct (unique_step rnd dn td b left num Hb Hl) as (y & t' & _ & Hp & _ & ->); [intros ->; cbn [length] in Hn; lia|].
  pose proof (Permutation_length Hp) as Hlen. cbn [length] in Hlen.
  destruct (IH (dn ++ [y]) t' (b + 1) (left - 1)) as (td' & -> & Hp'); [subst b; unfold size; rewrite app_length; cbn [length]; lia|subst left; unfold size; lia|lia|].
  exists (y :: td'). split; [by rewrite <- app_assoc|]. by rewrite Hp'.
Qed.
Lemma unique_ub rnd num : forall dn td b left, b = size dn -> left = size td -> (length td < num)%nat -> unique_loop rnd b left num (dn ++ td) = UB.
Proof.
  induction num as [|num IH]; intros dn td b left Hb Hl Hn; [lia|]. destruct td as [|x t]; [by subst left|].
  destruct (unique_step rnd dn (x :: t) b left num Hb Hl) as (y & t' & _ & Hp & _ & ->); [done|].
  pose proof (Permutation_length Hp) as Hlen. cbn [length] in Hlen, Hn.
  apply IH; [subst b; unfold size; rewrite app_length; cbn [length]; lia|subst left; unfold size; cbn [length]; lia|lia].
Qed.
Lemma unique_ext rnd rnd' num : forall b left l, (forall k, b <= k -> rnd k = rnd' k) -> unique_loop rnd b left num l = unique_loop rnd' b left num l.
Proof.
  induction num as [|num IH]; intros b left l He; [done|]. cbn [unique_loop]. rewrite (He b) by lia. destruct (left =? 0); [done|]. cbv zeta.
  destruct (l !! _); [|done]. destruct (l !! _); [|done]. apply IH. intros k Hk. apply He. lia.
Qed.
Lemma unique_any s : forall dn td rest b left, b = size dn -> left = size td -> s ++ rest ≡ₚ td ->
  exists rnd td', (forall k, rnd k <= left) /\ unique_loop rnd b left (length s) (dn ++ td) = Ok (dn ++ s ++ td').
Proof.
  induction s as [|y s IH]; intros dn td rest b left Hb Hl Hp.
  - exists (λ _, 0), td. split; [lia|done].
  - assert (Hy : y ∈ td) by (rewrite <- Hp; left). apply elem_of_list_lookup in Hy as [j Hj]. pose proof (lookup_lt_Some _ _ _ Hj) as Hjl.
    assert (Hne : td <> []) by (intros ->; by cbn [length] in Hjl; lia).
    set (pick := λ k : N, N.of_nat j). assert (Hm : N.of_nat j mod left = N.of_nat j) by (apply N.mod_small; subst left; unfold size; lia).
    destruct (unique_step pick dn td b left (length s) Hb Hl Hne) as (y' & t' & Ey & Hpt & Ea & _). unfold pick in Ey, Ea. rewrite Hm, Nat2N.id in Ey, Ea. rewrite Hj in Ey. injection Ey as <-.
    assert (Hp' : s ++ rest ≡ₚ t') by (apply (Permutation_cons_inv (a := y)); by rewrite Hpt).
    pose proof (Permutation_length Hpt) as Hlen. cbn [length] in Hlen.
    destruct (IH (dn ++ [y]) t' rest (b + 1) (left - 1)) as (rnd & td' & Hr & E); [subst b; unfold size; rewrite app_length; cbn [length]; lia|subst left; unfold size; lia|done|].
    set (rnd1 := λ k, if k =? b then N.of_nat j else rnd k). exists rnd1, td'. split.
    + intros k. unfold rnd1. destruct (k =? b); [subst left; unfold size; lia|]. specialize (Hr k). lia.
    + cbn [length]. destruct (unique_step rnd1 dn td b left (length s) Hb Hl Hne) as (y2 & t2 & Ey2 & _ & Ea2 & ->).
      assert (Er : rnd1 b = N.of_nat j) by (unfold rnd1; by rewrite N.eqb_refl). rewrite Er, Hm, Nat2N.id in Ey2, Ea2. rewrite Hj in Ey2. injection Ey2 as <-. rewrite Ea2, <- Ea.
      rewrite (unique_ext rnd1 rnd); [|intros k Hk; unfold rnd1; destruct (k =? b) eqn:Ek; [apply N.eqb_eq in Ek; lia|done]]. rewrite E. by rewrite <- app_assoc.
Qed.
Lemma random_unique_ok rnd l num : (num <= length l)%nat -> exists l', random_unique rnd l num = Ok l' /\ l' ≡ₚ l.
Proof. intros Hn. exact (unique_ok rnd num [] l 0 (size l) eq_refl eq_refl Hn). Qed.
Lemma random_unique_ub rnd l num : (length l < num)%nat -> random_unique rnd l num = UB.
Proof. intros Hn. exact (unique_ub rnd num [] l 0 (size l) eq_refl eq_refl Hn). Qed.
Lemma random_unique_any l s rest : s ++ rest ≡ₚ l -> exists rnd l', (forall k, rnd k <= size l) /\ random_unique rnd l (length s) = Ok l' /\ take (length s) l' = s.
Proof.
  intros Hp. destruct (unique_any s [] l rest 0 (size l) eq_refl eq_refl Hp) as (rnd & td & Hr & E). exists rnd, (s ++ td). split; [done|]. split; [exact E|]. by rewrite take_app.
Qed.
End Unique.
Lemma unique_fmap {A B} (g : A -> B) rnd num : forall b left (l : list A), unique_loop rnd b left num (g <$> l) = (let* l' := unique_loop rnd b left num l in Ok (g <$> l')).
Proof.
  induction num as [|num IH]; intros b left l; [done|]. cbn [unique_loop]. destruct (left =? 0); [done|]. cbv zeta. rewrite !list_lookup_fmap.
  destruct (l !! N.to_nat b) as [x|]; [|done]. destruct (l !! N.to_nat _) as [y|]; [|done]. cbn [fmap option_fmap option_map]. rewrite <- !list_fmap_insert. apply IH.
Qed.

(** ** The benchmark *)
Section Bench.
Context (H : hash -> hash -> hash).
Implicit Types (f : forest) (p : pollard) (ls : list hash).

(** An honest proof is accepted or rejected, with the hashes in any order; a rejection
    leaves the pollard in sync. *)
Lemma prove_verify f us ls p hs bp : synced H f p -> reachable H f us -> holds_leaves f ls -> F_Prove f hs = Ok (Some bp) ->
  exists b p', P_Verify H p bp hs = Ok (b, p') /\ (b = false -> synced H f p').
Proof.
  intros Hs Hr Hh EF. pose proof Hh as [Hfn Hg]. destruct (synced_holds H f p ls Hs Hh) as (_ & _ & Hn & HP & _). assert (H62 : 2 ^ 31 <= 2 ^ 62) by done.
  destruct (prove_facts H f us ls hs bp Hr Hh EF) as (Hwf & _). assert (HhR : is_height (f_n f) (NumRows (f_n f))) by (by apply NumRows_height).
  destruct (C06_lem H f us ls hs _ Hr Hh HhR) as [Hbad Hgood].
  destruct (decide (NoDup hs /\ Forall (λ h, h ∈ ls) hs)) as [[Hnd Hin]|Hx].
  2: { rewrite Hbad in EF; [done|]. intros [Hnd Hin]. apply Hx. split; [done|]. by apply Forall_forall. }
  rewrite Forall_forall in Hin. destruct (Hgood Hnd Hin) as (bp' & ps & EF' & HF & Hperm & Hsrt & Hps & Hprf). rewrite EF' in EF. injection EF as ->.
  assert (Hhon : honest (size ls) (m_sorted_targets bp) (nh H (leaf_at ls)) (m_proof bp)).
  { exists ps. rewrite <- Hfn. split; [|done]. rewrite (lists_nodes_ext _ _ (needed (f_n f) (m_targets bp))); [done|]. intros r i. by apply needed_perm. }
  pose proof (Verify_inv H p ls bp hs HP Hn Hwf) as HV. destruct (P_Verify H p bp hs) as [[b p']| | | |] eqn:E; cbn [wp] in HV; try done.
  2: { by destruct HV as [HV _]. }
  exists b, p'. split; [done|]. intros ->. eapply sy_verify; [done|]. split; [done|]. split; [done|]. intros ls' Hh'. rewrite <- (holds_unique f ls ls' Hh Hh').
  destruct HV as (_ & _ & HV & _). apply stores_no_collision, PInv_stores; [|lia]. by apply HV.
Qed.
Lemma runs_true f bp hs runs : F_Prove f hs = Ok (Some bp) -> StronglySorted N.lt (m_targets bp) -> Forall2 (λ t h, F_GetLeaf f t = Ok h) (m_sorted_targets bp) hs ->
  forall p, synced H f p -> exists p', verify_runs H runs p bp hs = Ok (repeat true runs, p').
Proof.
  intros EF Hsrt HF. induction runs as [|runs IH]; intros p Hs; [by exists p|]. cbn [verify_runs repeat].
  destruct (C26_lem H f p hs bp hs Hs EF HF) as (p1 & -> & _ & Hs1). cbn [bind fst snd]. destruct (IH p1 Hs1) as (p2 & ->). by exists p2.
Qed.
Lemma runs_false f us ls bp hs runs : reachable H f us -> holds_leaves f ls -> F_Prove f hs = Ok (Some bp) -> ~ StronglySorted N.lt (m_targets bp) ->
  forall p, synced H f p -> (exists p', verify_runs H runs p bp hs = Ok (repeat false runs, p')) \/
    exists q q', synced H f q /\ P_Verify H q bp hs = Ok (true, q') /\ shows_collision H q' ls.
Proof.
  intros Hr Hh EF Hns. induction runs as [|runs IH]; intros p Hs; [left; by exists p|]. cbn [verify_runs repeat].
  destruct (prove_verify f us ls p hs bp Hs Hr Hh EF) as (b & p1 & E & Hf). destruct b.
  - right. exists p, p1. split; [done|]. split; [done|]. destruct (C83_exact_lem H f p hs bp Hs EF) as [_ Hc]. by destruct (Hc p1 ls Hh E).
  - rewrite E. cbn [bind fst snd]. destruct (IH p1 (Hf eq_refl)) as [(p2 & ->)|?]; [left; by exists p2|by right].
Qed.
(** What the benchmarks start with. *)
Lemma bench_setup rnd num n : n = 2 * N.of_nat num -> n < 2 ^ 31 -> exists l f u p bp, let adds := test_leaves 0 n in let sel := take num l in
  random_unique rnd (nseq 0 n) num = Ok l /\ random_unique rnd adds num = Ok ((λ i, (SetHash i, false)) <$> l) /\ (take num ((λ i, (SetHash i, false)) <$> l)).*1 = SetHash <$> sel /\
  F_Modify H (RamForest_new 0) adds [] = Ok (true, f) /\ F_ModifyUndo H (RamForest_new 0) adds [] = Ok (true, Some u, f) /\ P_Modify H (Pollard_new 0) adds [] = Ok (true, p) /\
  synced H f p /\ reachable H f [] /\ holds_leaves f (SetHash <$> nseq 0 n) /\ F_Prove f (SetHash <$> sel) = Ok (Some bp) /\ m_targets bp = sel /\ proof_wf bp /\
  NoDup sel /\ (forall i, i ∈ sel -> i < n) /\ Forall2 (λ h t, t < f_n f /\ F_GetLeaf f t = Ok h) (SetHash <$> sel) (m_targets bp).
Proof.
  intros En Hb. assert (H62 : 2 ^ 31 <= 2 ^ 62) by done. assert (Hm : 2 ^ 31 = int_max + 1) by done. 
  destruct (random_unique_ok rnd (nseq 0 n) num) as (l & El & Hp); [rewrite nseq_length; lia|]. set (sel := take num l).
  assert (Hsub : forall i, i ∈ sel -> i < n).
  { intros i Hi. assert (Hi' : i ∈ l) by (rewrite <- (take_drop num l); apply elem_of_app; by left). rewrite Hp in Hi'. apply nseq_elem in Hi'. lia. }
  assert (Hnd : NoDup sel).
  { pose proof (nseq_NoDup 0 n) as Hx. rewrite <- Hp, <- (take_drop num l) in Hx. by apply NoDup_app in Hx as (? & _). }
  set (ls := SetHash <$> nseq 0 n). assert (Hsz : size ls = n) by (unfold ls, size; rewrite fmap_length, nseq_length; lia).
  assert (Hat : forall i, i < n -> leaf_at ls i = SetHash i).
  { intros i Hi. unfold leaf_at, ls. apply list_lookup_total_correct. rewrite list_lookup_fmap, nseq_lookup by lia. cbn [fmap option_fmap option_map]. do 2 f_equal. lia. }
  assert (Hndl : NoDup ls).
  { unfold ls. apply NoDup_fmap_2_strong; [|apply nseq_NoDup]. intros x y Hx%nseq_elem Hy%nseq_elem E. apply SetHash_inj in E; lia. }
  set (adds := test_leaves 0 n). assert (Eadds : adds = test_leaves 0 n) by done. clearbody adds. assert (Hsa : size adds = n) by (subst adds; apply test_leaves_size). assert (Hadds : adds.*1 = ls) by (subst adds; apply test_leaves_fst).
  assert (Hru : random_unique rnd adds num = Ok ((λ i, (SetHash i, false)) <$> l)).
  { subst adds. unfold random_unique, test_leaves in *. rewrite unique_fmap. replace (size ((λ i : N, (SetHash i, false)) <$> nseq 0 n)) with (size (nseq 0 n)) by (unfold size; by rewrite fmap_length). by rewrite El. }
  assert (Hh0 : holds_leaves (RamForest_new 0) []) by (split; [done|]; intros i Hi; change (size (@nil N)) with 0 in Hi; lia).
  assert (Hbd : size (@nil hash) + size adds < 2 ^ 31 + size (@nil N)) by (change (size (@nil N)) with 0; unfold leaf in *; rewrite Hsa; lia).
  assert (Hnd0 : NoDup (spec_remove [] [] ++ adds.*1)) by (rewrite Hadds; exact Hndl).
  destruct (sync_step H _ _ [] adds [] (sy_new H) Hh0 Hbd (valid_nil _) Hnd0) as (bp0 & v & f & p & EF0 & _ & EV & _ & EM & EP & Hs & Hh).
  destruct (step_ok H (RamForest_new 0) [] [] adds [] (reach_new H) Hh0 Hbd (valid_nil _) Hnd0) as (u & f2 & EM2 & EU & _ & Hr & _). assert (f2 = f) as -> by congruence.
  cbn [fmap list_fmap] in EF0, EV. rewrite prove_nothing in EF0. injection EF0 as <-. assert (v = Pollard_new 0) as -> by (rewrite verify_nothing in EV; congruence).
  change (spec_remove [] [] ++ adds.*1) with adds.*1 in Hh. rewrite Hadds in Hh. 
  assert (Ehs : (take num ((λ i, (SetHash i, false)) <$> l)).*1 = SetHash <$> sel) by (unfold sel; rewrite <- fmap_take, <- list_fmap_compose; done).
  assert (HhR : is_height (f_n f) (NumRows (f_n f))) by (by apply NumRows_height).
  destruct (C06_lem H f [] ls (SetHash <$> sel) _ Hr Hh HhR) as [_ Hgood].
  destruct Hgood as (bp & ps & EF & HF & _).
  { apply NoDup_fmap_2_strong; [|done]. intros x y Hx%Hsub Hy%Hsub E. apply SetHash_inj in E; lia. }
  { intros h (i & -> & Hi%Hsub)%elem_of_list_fmap. rewrite <- Hat by done. apply leaf_at_elem. lia. }
  destruct (prove_facts H f [] ls _ bp Hr Hh EF) as (Hwf & _). pose proof Hh as [Hfn Hg].
  assert (Et : m_targets bp = sel).
  { clear - HF Hsub Hat Hfn Hg Hsz Hndl Hb. revert HF. generalize (m_targets bp) as ts. induction sel as [|i sel IH]; intros ts HF; [by apply Forall2_nil_inv_l in HF|].
    rewrite fmap_cons in HF. apply Forall2_cons_inv_l in HF as (t & ts' & [Ht Et] & HF' & ->). f_equal; [|apply IH; [intros j Hj; apply Hsub; by right|done]].
    rewrite Hfn in Ht. rewrite Hg in Et by done. apply Ok_inv in Et. assert (Hi : i < n) by (apply Hsub; left). rewrite <- Hat in Et by done. apply (leaf_at_inj ls t i Hndl Ht); [lia|done]. }
  exists l, f, u, p, bp. cbv zeta. fold sel. by split_and!.
Qed.
Lemma bench_lem rnd num runs : 2 * N.of_nat num < 2 ^ 31 -> exists l, random_unique rnd (nseq 0 (2 * N.of_nat num)) num = Ok l /\
  let sel := take num l in
  (StronglySorted N.lt sel -> exists p, VerifyElementsPollard H rnd num runs = Ok (repeat true runs, p)) /\
  (~ StronglySorted N.lt sel -> (exists p, VerifyElementsPollard H rnd num runs = Ok (repeat false runs, p)) \/
    exists f p bp p' ls, synced H f p /\ holds_leaves f ls /\ F_Prove f (SetHash <$> sel) = Ok (Some bp) /\ P_Verify H p bp (SetHash <$> sel) = Ok (true, p') /\ shows_collision H p' ls).
Proof.
  intros Hb. assert (Hm : 2 ^ 31 = int_max + 1) by done. destruct (bench_setup rnd num _ eq_refl Hb) as (l & f & u & p & bp & El & Hru & Ehs & EM & EU & EP & Hs & Hr & Hh & EF & Et & Hwf & Hnd & Hsub & HF).
  exists l. split; [done|]. cbv zeta. unfold VerifyElementsPollard. cbv zeta. destruct (int_max <? _) eqn:Ei; [apply N.ltb_lt in Ei; lia|].
  rewrite EU. cbn [bind]. rewrite EP. cbn [bind fst snd]. rewrite Hru. cbn [bind]. unfold leaf in *. rewrite Ehs, EF. cbn [bind default from_option id]. set (sel := take num l) in *.
  split.
  - intros Hsrt. eapply runs_true; [exact EF|by rewrite Et| |done]. rewrite Hwf, Et, sortN_id by done. rewrite Et in HF. apply Forall2_flip. eapply Forall2_impl; [exact HF|]. by intros h t [_ ?].
  - intros Hns. destruct (runs_false f [] _ bp (SetHash <$> sel) runs Hr Hh EF ltac:(by rewrite Et) p Hs) as [?|(q & q' & Hq & Eq & Hc)]; [by left|right]. by exists f, q, bp, q', (SetHash <$> nseq 0 (2 * N.of_nat num)).
Qed.
Lemma forest_lem rnd num : 2 * N.of_nat num < 2 ^ 31 -> exists l, random_unique rnd (nseq 0 (2 * N.of_nat num)) num = Ok l /\
  let sel := take num l in
  (exists bp, ProveElementsForest H rnd num = Ok (Some bp) /\ m_targets bp = sel) /\ VerifyElementsForest H rnd num = Ok true /\
  exists f ls, RemoveElementsForest H rnd num = Ok (true, f) /\ holds_leaves f ls /\ ls ≡ₚ SetHash <$> drop num l.
Proof.
  intros Hb. assert (Hm : 2 ^ 31 = int_max + 1) by done. destruct (bench_setup rnd num _ eq_refl Hb) as (l & f & u & p & bp & El & Hru & Ehs & EM & EU & EP & Hs & Hr & Hh & EF & Et & Hwf & Hnd & Hsub & HF).
  exists l. split; [done|]. cbv zeta. unfold ProveElementsForest, VerifyElementsForest, RemoveElementsForest. cbv zeta. destruct (int_max <? _) eqn:Ei; [apply N.ltb_lt in Ei; lia|].
  rewrite EU, Hru. cbn [bind fst snd]. unfold leaf in *. rewrite Ehs, EF. cbn [bind default from_option id]. split; [by exists bp|]. split.
  - f_equal. apply (C39_partial_lem H f [] _ _ _ Hr Hh). intros h (i & -> & Hi%Hsub)%elem_of_list_fmap. apply elem_of_list_fmap. exists i. split; [done|]. apply nseq_elem. lia.
  - unfold F_Modify in EM. cbn [F_Remove bind fst snd negb] in EM. apply bind_ok in EM as (f0 & EA & E0). apply Ok_inv in E0. injection E0 as ->. unfold leaf in *. rewrite EA. cbn [bind]. rewrite EF. cbn [bind default from_option id].
    set (n := 2 * N.of_nat num) in *. set (ls := SetHash <$> nseq 0 n) in *. assert (Hsz : size ls = n) by (unfold ls, size; rewrite fmap_length, nseq_length; lia).
    assert (Hts : m_sorted_targets bp ≡ₚ take num l) by (rewrite Hwf, Et; apply sortN_perm).
    assert (Hv : valid_targets (size ls) (m_sorted_targets bp)).
    { split; [rewrite Hwf, Et; apply sorted_le_lt; [apply sortN_sorted|]; by rewrite sortN_perm|]. rewrite Hts. apply Forall_forall. intros i Hi. rewrite Hsz. by apply Hsub. }
    destruct (reachable_holds H f [] ls Hr Hh) as (Hinv & Hn & _). pose proof (inv_NoDup H f ls Hinv) as Hndl.
    assert (Hsp : spec_remove ls (m_sorted_targets bp) ≡ₚ survivors ls (m_sorted_targets bp)) by (by apply spec_remove_perm).
    assert (Hp : l ≡ₚ nseq 0 n) by (destruct (random_unique_ok rnd (nseq 0 n) num) as (l' & El' & Hp); [rewrite nseq_length; lia|]; congruence).
    pose proof (nseq_NoDup 0 n) as Hndn. rewrite <- Hp, <- (take_drop num l) in Hndn. apply NoDup_app in Hndn as (_ & Hdis & Hndd).
    assert (Hin : forall i, i < n <-> i ∈ take num l \/ i ∈ drop num l).
    { intros i. rewrite <- elem_of_app, take_drop, Hp, nseq_elem. lia. }
    assert (Hat : forall i, i < n -> leaf_at ls i = SetHash i).
    { intros i Hi. unfold leaf_at, ls. apply list_lookup_total_correct. rewrite list_lookup_fmap, nseq_lookup by lia. cbn [fmap option_fmap option_map]. do 2 f_equal. lia. }
    assert (Hd : spec_remove ls (m_sorted_targets bp) ≡ₚ SetHash <$> drop num l).
    { rewrite Hsp. apply NoDup_Permutation.
      - by apply NoDup_survivors.
      - apply NoDup_fmap_2_strong; [|done]. intros x y Hx Hy E. assert (x < n) by (apply Hin; by right). assert (y < n) by (apply Hin; by right). apply SetHash_inj in E; lia.
      - intros h. rewrite survivors_iff, elem_of_list_fmap. split.
        + intros (i & Hi & Hni & <-). rewrite Hsz in Hi. rewrite Hts in Hni. exists i. split; [by apply Hat|]. apply Hin in Hi as [?|?]; done.
        + intros (i & -> & Hi). assert (Hlt : i < n) by (apply Hin; by right). exists i. split; [lia|]. split; [|by apply Hat]. rewrite Hts. intros Hx. by apply (Hdis i). }
    destruct (step_ok H f [] ls [] (m_sorted_targets bp) Hr Hh) as (u1 & f1 & _ & EU1 & _ & _ & Hh1); [change (size (@nil leaf)) with 0; lia|done| |].
    { rewrite app_nil_r, Hsp. by apply NoDup_survivors. }
    unfold leaf in *. rewrite EU1. cbn [bind fst snd]. rewrite app_nil_r in Hh1. by exists f1, (spec_remove ls (m_sorted_targets bp)).
Qed.

(** ** The benchmarks without selection *)
Lemma add_setup n : n < 2 ^ 31 -> exists f u p, let adds := test_leaves 0 n in
  F_Add H (RamForest_new 0) adds = Ok f /\ F_ModifyUndo H (RamForest_new 0) adds [] = Ok (true, Some u, f) /\ P_Modify H (Pollard_new 0) adds [] = Ok (true, p) /\
  synced H f p /\ reachable H f [] /\ holds_leaves f (SetHash <$> nseq 0 n).
Proof.
  intros Hb. set (adds := test_leaves 0 n). set (ls := SetHash <$> nseq 0 n).
  assert (Hsa : size adds = n) by apply test_leaves_size. assert (Hadds : adds.*1 = ls) by apply test_leaves_fst. clearbody adds.
  assert (Hndl : NoDup ls).
  { unfold ls. apply NoDup_fmap_2_strong; [|apply nseq_NoDup]. intros x y Hx%nseq_elem Hy%nseq_elem E. apply SetHash_inj in E; lia. }
  assert (Hh0 : holds_leaves (RamForest_new 0) []) by (split; [done|]; intros i Hi; change (size (@nil N)) with 0 in Hi; lia).
  assert (Hbd : size (@nil hash) + size adds < 2 ^ 31 + size (@nil N)) by (change (size (@nil N)) with 0; unfold leaf in *; rewrite Hsa; lia).
  assert (Hnd0 : NoDup (spec_remove [] [] ++ adds.*1)) by (rewrite Hadds; exact Hndl).
  destruct (sync_step H _ _ [] adds [] (sy_new H) Hh0 Hbd (valid_nil _) Hnd0) as (bp0 & v & f & p & EF0 & _ & EV & _ & EM & EP & Hs & Hh).
  destruct (step_ok H (RamForest_new 0) [] [] adds [] (reach_new H) Hh0 Hbd (valid_nil _) Hnd0) as (u & f2 & EM2 & EU & _ & Hr & _). assert (f2 = f) as -> by congruence.
  cbn [fmap list_fmap] in EF0, EV. rewrite prove_nothing in EF0. injection EF0 as <-. assert (v = Pollard_new 0) as -> by (rewrite verify_nothing in EV; congruence).
  change (spec_remove [] [] ++ adds.*1) with adds.*1 in Hh. rewrite Hadds in Hh.
  unfold F_Modify in EM. cbn [F_Remove bind fst snd negb] in EM. apply bind_ok in EM as (f0 & EA & E0). apply Ok_inv in E0. injection E0 as ->.
  exists f, u, p. cbv zeta. by split_and!.
Qed.
Lemma add_lem n : n < 2 ^ 31 -> exists f p q, AddElements H n false = Ok f /\ AddElements H n true = Ok f /\ holds_leaves f (SetHash <$> nseq 0 n) /\
  AddElementsPollard H n = Ok (true, p) /\ synced H f p /\ RestorePollard H n = Ok q /\ synced H f q.
Proof.
  intros Hb. destruct (add_setup n Hb) as (f & u & p & EA & EU & EP & Hs & Hr & Hh). destruct (C32_pollard_lem H f p Hs) as (rs & q & Ers & Eq & Hq).
  exists f, p, q. unfold AddElements, AddElementsPollard, RestorePollard. cbv zeta. rewrite EU, EP. cbn [bind fst snd]. rewrite Ers. cbn [bind].
  assert (En : p_n p = n) by (destruct (C25_lem H f p Hs) as [_ ->]; destruct Hh as [-> _]; unfold size; rewrite fmap_length, nseq_length; lia).
  rewrite En in Eq. by split_and!.
Qed.
Lemma overwrite_same c old : (length old <= length c)%nat -> overwrite old c = c.
Proof. clear H. intros Hl. unfold overwrite. rewrite drop_ge by done. apply app_nil_r. Qed.
(** The file of a forest, a function of its leaves. *)
Definition content ls : list N := be 8 (size ls) ++ (concat (rowlist (nh H (leaf_at ls)) (size ls) <$> seq 0 (S (N.to_nat (NumRows (size ls)))))) ≫= be 32.
Lemma commit_content f ls old : inv H f ls -> size ls <= int_max -> F_Commit f old = Ok (overwrite old (content ls)).
Proof.
  intros Hi Hn. rewrite (F_Commit_ok H f ls old Hi Hn). unfold content. 
  replace (rowlist (G f) (size ls) <$> seq 0 (S (N.to_nat (NumRows (size ls))))) with (rowlist (nh H (leaf_at ls)) (size ls) <$> seq 0 (S (N.to_nat (NumRows (size ls))))); [done|].
  apply list_fmap_ext. intros _ r _. unfold rowlist. apply list_fmap_ext. intros _ i Hx%elem_of_list_lookup_2%nseq_elem. symmetry. apply (inv_node H f ls Hi), node_iff. lia.
Qed.
Lemma SetHash_fits i : SetHash i < 256 ^ 32.
Proof.
  clear H. unfold SetHash. apply (be_value_bound ([i mod 256; (i / 256) mod 256; (i / 65536) mod 256; (i / 16777216) mod 256; 255] ++ replicate 27 0)).
  apply Forall_app. split; [|apply Forall_replicate; done]. repeat (constructor; [first [done|by apply N.mod_lt]|]). constructor.
Qed.
Lemma disk_lem n runs : (forall a b, H a b < 256 ^ 32) -> n < 2 ^ 31 -> exists f file, AddElements H n true = Ok f /\ F_Commit f [] = Ok file /\ RestoreFromDiskForest H n runs = Ok file.
Proof.
  intros HH Hb. destruct (add_setup n Hb) as (f & u & p & EA & EU & EP & Hs & Hr & Hh). set (ls := SetHash <$> nseq 0 n) in *. assert (Hm : 2 ^ 31 = int_max + 1) by done.
  assert (Hsz : size ls = n) by (unfold ls, size; rewrite fmap_length, nseq_length; lia). destruct (reachable_holds H f [] ls Hr Hh) as (Hi & _).
  exists f, (content ls). unfold AddElements, RestoreFromDiskForest. cbv zeta. rewrite EU. cbn [bind fst snd]. split; [done|]. split; [rewrite (commit_content f ls [] Hi) by lia; f_equal; apply overwrite_same; cbn [length]; lia|].
  assert (Hnew : F_OpenNew = Ok (RamForest_new 0, replicate 8 0)) by done. rewrite Hnew. cbn [bind fst snd]. rewrite EU. cbn [bind fst snd]. rewrite (commit_content f ls _ Hi) by lia. cbn [bind].
  assert (H8 : (8 <= length (content ls))%nat) by (unfold content; rewrite app_length, be_length; lia).
  rewrite overwrite_same by (rewrite replicate_length; lia). clear - HH Hb Hm Hsz Hi ls. revert f Hi.
  assert (Hl : Forall (λ h, h < 256 ^ 32) ls). { apply Forall_forall. intros h (i & -> & _)%elem_of_list_fmap. apply SetHash_fits. }
  induction runs as [|runs IH]; intros f Hi; [done|]. cbn [disk_runs].
  destruct (F_Restore_ok H f ls (content ls) (content ls) Hi ltac:(lia) HH Hl) as (g & Eg & Hg). { rewrite (commit_content f ls _ Hi) by lia. by rewrite overwrite_same. }
  rewrite Eg. cbn [bind]. assert (En : f_n g = n) by (destruct Hg as [[Hgn _] _ _ _ _]; by rewrite Hgn). rewrite En, N.eqb_refl. cbn [assert_ bind].
  rewrite (commit_content g ls _ Hg) by lia. cbn [bind]. rewrite overwrite_same by done. by apply (IH g).
Qed.
End Bench.
