(** * ArgsFacts: the command line of the benchmark program (proofs) *)
From Verif Require Import Base ArgsModel ArgsSpec.
From Coq Require Import ZArith ZifyBool ZifyNat ZifyN.
Ltac Zify.zify_post_hook ::= idtac.

(** ** Arguments *)
Lemma find_some c s i : find_char c s = Some i -> c ∉ take i s /\ s = take i s ++ c :: drop (S i) s.
Proof.
  revert i. induction s as [|x s IH]; intros i E; cbn [find_char] in E; [done|]. destruct (x =? c) eqn:Ex.
  - apply N.eqb_eq in Ex as ->. injection E as <-. cbn [take drop]. split; [apply not_elem_of_nil|done].
  - destruct (find_char c s) as [j|]; [|done]. cbn in E. injection E as <-. destruct (IH j eq_refl) as [H1 H2]. cbn [take drop]. apply N.eqb_neq in Ex. split.
    + apply not_elem_of_cons. split; [by intros ->|done].
    + cbn [app]. by rewrite <- H2.
Qed.
Lemma find_none c s : find_char c s = None <-> c ∉ s.
Proof.
  induction s as [|x s IH]; cbn [find_char]; [split; [intros _; apply not_elem_of_nil|done]|]. rewrite not_elem_of_cons, <- IH. destruct (x =? c) eqn:Ex.
  - apply N.eqb_eq in Ex as ->. split; [done|]. by intros [? _].
  - apply N.eqb_neq in Ex. destruct (find_char c s); cbn.
    + split; [done|]. by intros [_ ?].
    + split; [|done]. intros _. split; [by intros ->|done].
Qed.
Lemma find_at c k v : c ∉ k -> find_char c (k ++ c :: v) = Some (length k).
Proof.
  induction k as [|x k IH]; intros Hk; cbn [app find_char length]; [by rewrite N.eqb_refl|]. apply not_elem_of_cons in Hk as [Hx Hk].
  destruct (x =? c) eqn:Ex; [apply N.eqb_eq in Ex; congruence|]. by rewrite IH.
Qed.
Lemma parse_sets a k v : parse_arg a = (k, v) <-> sets a k v.
Proof.
  unfold parse_arg, sets, eq_sign. split.
  - destruct (find_char 61 a) as [i|] eqn:E; intros Ha; injection Ha as <- <-.
    + destruct (find_some _ _ _ E) as [H1 H2]. split; [done|by left].
    + split; [by apply find_none|by right].
  - intros [Hk [->|[-> ->]]].
    + rewrite find_at by done. rewrite take_app. f_equal. replace (S (length k)) with (length (k ++ [61])) by (rewrite app_length; cbn [length]; lia).
      change (61 :: v) with ([61] ++ v). by rewrite app_assoc, drop_app.
    + by rewrite (proj2 (find_none _ _) Hk).
Qed.
Lemma last_set_snoc args a k v : last_set (args ++ [a]) k v <-> sets a k v \/ (last_set args k v /\ forall w, ~ sets a k w).
Proof.
  split.
  - intros (pre & b & post & E & Hb & Hp). destruct (decide (post = [])) as [->|Hne].
    + apply app_inj_tail in E as [_ <-]. by left.
    + destruct (exists_last Hne) as (post' & z & ->). rewrite app_comm_cons, app_assoc in E. apply app_inj_tail in E as [-> <-]. right. split.
      * exists pre, b, post'. split; [done|]. split; [done|]. intros c w Hc. apply Hp, elem_of_app. by left.
      * intros w. apply Hp, elem_of_app. right. apply elem_of_list_here.
  - intros [Ha|[(pre & b & post & -> & Hb & Hp) Ha]].
    + exists args, a, []. split; [done|]. split; [done|]. intros b w Hb. by apply elem_of_nil in Hb.
    + exists pre, b, (post ++ [a]). split; [by rewrite <- app_assoc|]. split; [done|]. intros c w [Hc|Hc%elem_of_list_singleton]%elem_of_app; [by apply Hp|subst c; apply Ha].
Qed.
Lemma parse_last args k v : fold_left (λ (m : gmap (list N) (list N)) a, let kv := parse_arg a in <[kv.1 := kv.2]> m) args ∅ !! k = Some v <-> last_set args k v.
Proof.
  revert v. induction args as [|a args IH] using rev_ind; intros v.
  - cbn [fold_left]. rewrite lookup_empty. split; [done|]. intros (pre & a & post & E & _). by destruct pre.
  - rewrite fold_left_app. cbn [fold_left]. cbv zeta. rewrite last_set_snoc, <- IH. destruct (parse_arg a) as [k' v'] eqn:E. cbn [fst snd].
    destruct (decide (k' = k)) as [->|Hne].
    + rewrite lookup_insert. apply parse_sets in E as E'. split.
      * intros Ev. injection Ev as ->. by left.
      * intros [Hv|[_ Hx]]; [apply parse_sets in Hv; congruence|by destruct (Hx v')].
    + rewrite lookup_insert_ne by done. split.
      * intros Hv. right. split; [done|]. intros w Hw%parse_sets. congruence.
      * intros [Hv%parse_sets|[? _]]; [congruence|done].
Qed.
Lemma parse_lem argv k v : ParseParameters argv !! k = Some v <-> last_set (drop 1 argv) k v.
Proof. exact (parse_last (drop 1 argv) k v). Qed.
Lemma args_lem argv k def : (forall v, last_set (drop 1 argv) k v -> GetArg (ParseParameters argv) k def = v /\ IsArgSet (ParseParameters argv) k = true) /\
  ((forall v, ~ last_set (drop 1 argv) k v) -> GetArg (ParseParameters argv) k def = def /\ IsArgSet (ParseParameters argv) k = false).
Proof.
  unfold GetArg, IsArgSet. split.
  - intros v Hv%parse_lem. by rewrite Hv.
  - intros Hn. destruct (ParseParameters argv !! k) as [v|] eqn:E; [|done]. by apply parse_lem, Hn in E.
Qed.
Lemma last_set_ex args k : (exists v, last_set args k v) <-> exists a v, a ∈ args /\ sets a k v.
Proof.
  induction args as [|a args IH] using rev_ind.
  - split; [intros (v & pre & a & post & E & _); by destruct pre|intros (a & v & Ha & _); by apply elem_of_nil in Ha].
  - split.
    + intros (v & [Hv|[Hv _]]%last_set_snoc); [exists a, v; split; [apply elem_of_app; right; apply elem_of_list_here|done]|].
      destruct (proj1 IH (ex_intro _ v Hv)) as (b & w & Hb & Hw). exists b, w. split; [apply elem_of_app; by left|done].
    + intros (b & w & Hb & Hw). destruct (parse_arg a) as [k' v'] eqn:E. destruct (decide (k' = k)) as [->|Hne].
      * exists v'. apply last_set_snoc. left. by apply parse_sets.
      * assert (Hna : forall w, ~ sets a k w) by (intros x Hx%parse_sets; congruence). apply elem_of_app in Hb as [Hb|Hb%elem_of_list_singleton]; [|subst b; by destruct (Hna w)].
        destruct (proj2 IH (ex_intro _ b (ex_intro _ w (conj Hb Hw)))) as [v Hv]. exists v. apply last_set_snoc. by right.
Qed.

(** ** Numbers *)
Lemma digit_iff c : is_digit c = true <-> digit c.
Proof. unfold is_digit, digit. lia. Qed.
Lemma space_iff c : is_space c = true <-> space c.
Proof. unfold is_space, space. lia. Qed.
Lemma skip_ok ws s : Forall space ws -> (forall c r, s = c :: r -> ~ space c) -> skip_space (ws ++ s) = s.
Proof.
  intros Hws Hs. induction Hws as [|c ws Hc _ IH]; cbn [app skip_space].
  - destruct s as [|c r]; [done|]. cbn [skip_space]. destruct (is_space c) eqn:E; [|done]. apply space_iff in E. by destruct (Hs c r eq_refl).
  - by rewrite (proj2 (space_iff c) Hc).
Qed.
Lemma skip_split s : exists ws, s = ws ++ skip_space s /\ Forall space ws.
Proof.
  induction s as [|c s (ws & E & Hws)]; [by exists []|]. cbn [skip_space]. destruct (is_space c) eqn:Ec; [|by exists []].
  exists (c :: ws). split; [cbn [app]; by rewrite <- E|]. constructor; [by apply space_iff|done].
Qed.
Lemma digits_ok ds rest : Forall digit ds -> (forall c r, rest = c :: r -> ~ digit c) -> forall acc, read_digits acc (ds ++ rest) = acc * 10 ^ size ds + dec ds.
Proof.
  intros Hds Hr. induction Hds as [|d ds Hd _ IH]; intros acc; cbn [app read_digits dec].
  - change (size (@nil N)) with 0. rewrite N.pow_0_r. destruct rest as [|c r]; cbn [read_digits]; [lia|]. destruct (is_digit c) eqn:E; [|lia]. apply digit_iff in E. by destruct (Hr c r eq_refl).
  - rewrite (proj2 (digit_iff d) Hd), IH. replace (size (d :: ds)) with (size ds + 1) by (unfold size; cbn [length]; lia). rewrite N.pow_add_r, N.pow_1_r. generalize (10 ^ size ds). intros P. nia.
Qed.
Lemma digits_split s : exists ds rest, s = ds ++ rest /\ Forall digit ds /\ (forall c r, rest = c :: r -> ~ digit c).
Proof.
  induction s as [|c s (ds & rest & E & Hd & Hr)]; [by exists [], []|]. destruct (is_digit c) eqn:Ec.
  - exists (c :: ds), rest. split; [cbn [app]; by rewrite <- E|]. split; [|done]. constructor; [by apply digit_iff|done].
  - exists [], (c :: s). split; [done|]. split; [constructor|]. intros c' r Ex. injection Ex as -> ->. intros Hx%digit_iff. congruence.
Qed.
Definition int_range (z : Z) : Prop := (-2147483648 <= z <= 2147483647)%Z.
Lemma stoi_number s z : starts_with s z -> (int_range z -> stoi s = SValue z) /\ (~ int_range z -> stoi s = SRange).
Proof.
  intros (ws & sg & ds & rest & -> & Hws & Hne & Hds & Hr & Hz). destruct ds as [|d ds0]; [done|]. set (ds := d :: ds0) in *.
  assert (Hd : digit d) by (by apply Forall_cons in Hds as [? _]). assert (Hd' := Hd). unfold digit in Hd'.
  assert (Es : exists neg, read_sign (skip_space (ws ++ sg ++ ds ++ rest)) = (neg, ds ++ rest) /\ z = (if neg then - Z.of_N (dec ds) else Z.of_N (dec ds))%Z).
  { rewrite skip_ok; [|done|].
    - destruct Hz as [[[->| ->] ->]|[-> ->]]; cbn [app]; [|by exists false|by exists true]. exists false. split; [|done]. unfold ds. cbn [app read_sign].
      destruct (d =? 45) eqn:E1; [lia|]. destruct (d =? 43) eqn:E2; [lia|]. done.
    - intros c r Ex. unfold space. destruct Hz as [[[->| ->] _]|[-> _]]; cbn [app] in Ex; unfold ds in Ex; cbn [app] in Ex; injection Ex as Ec _; clear - Ec Hd'; lia. }
  destruct Es as (neg & Es & Ez). unfold stoi. cbv zeta. rewrite Es. cbn [fst snd]. rewrite (digits_ok ds rest Hds Hr 0), N.mul_0_l, N.add_0_l.
  assert (Em : forall (A : Type) (x y : A), match ds ++ rest with c :: _ => if is_digit c then x else y | [] => y end = x).
  { intros A x y. unfold ds. cbn [app]. by rewrite (proj2 (digit_iff d) Hd). }
  rewrite Em, <- Ez. unfold int_range. split; intros Hi.
  - rewrite (proj2 (andb_true_iff _ _)); [done|]. split; apply Z.leb_le; apply Hi.
  - destruct (-2147483648 <=? z)%Z eqn:E1; [|done]. destruct (z <=? 2147483647)%Z eqn:E2; [|done]. destruct Hi. split; by apply Z.leb_le.
Qed.
Lemma stoi_invalid s : (forall z, ~ starts_with s z) -> stoi s = SInvalid.
Proof.
  intros Hn. unfold stoi. cbv zeta. destruct (skip_split s) as (ws & Es & Hws).
  assert (Hsg : exists sg, skip_space s = sg ++ (read_sign (skip_space s)).2 /\ (((sg = [] \/ sg = [43]) /\ (read_sign (skip_space s)).1 = false) \/ (sg = [45] /\ (read_sign (skip_space s)).1 = true))).
  { destruct (skip_space s) as [|c t]; cbn [read_sign]; [exists []; split; [done|left; split; [by left|done]]|]. destruct (c =? 45) eqn:E1; [apply N.eqb_eq in E1 as ->; exists [45]; split; [done|by right]|].
    destruct (c =? 43) eqn:E2; [apply N.eqb_eq in E2 as ->; exists [43]; split; [done|left; split; [by right|done]]|]. exists []. split; [done|]. left. split; [by left|done]. }
  destruct Hsg as (sg & Eg & Hsg). destruct (read_sign (skip_space s)) as [neg t]. cbn [fst snd] in *. destruct t as [|c t]; [done|]. destruct (is_digit c) eqn:Ec; [|done]. exfalso.
  destruct (digits_split (c :: t)) as (ds & rest & Et & Hds & Hr).
  apply (Hn (if neg then - Z.of_N (dec ds) else Z.of_N (dec ds))%Z). exists ws, sg, ds, rest. split; [by rewrite <- Et, <- Eg|]. split; [done|]. split.
  { intros ->. cbn [app] in Et. subst rest. apply (Hr c t eq_refl). by apply digit_iff. }
  split; [done|]. split; [done|]. destruct Hsg as [[? ->]|[? ->]]; [by left|by right].
Qed.
Lemma int_lem argv k def v : last_set (drop 1 argv) k v ->
  (forall z, starts_with v z -> (-2147483648 <= z <= 2147483647)%Z -> GetIntArg (ParseParameters argv) k def = Ok z) /\
  (forall z, starts_with v z -> ~ (-2147483648 <= z <= 2147483647)%Z -> GetIntArg (ParseParameters argv) k def = Ok def) /\
  ((forall z, ~ starts_with v z) -> GetIntArg (ParseParameters argv) k def = Throw).
Proof.
  intros Hv%parse_lem. unfold GetIntArg. rewrite Hv. split; [|split].
  - intros z Hz Hi. destruct (stoi_number v z Hz) as [E _]. by rewrite (E Hi).
  - intros z Hz Hi. destruct (stoi_number v z Hz) as [_ E]. by rewrite (E Hi).
  - intros Hn. by rewrite (stoi_invalid v Hn).
Qed.
Lemma int_default argv k def : (forall v, ~ last_set (drop 1 argv) k v) -> GetIntArg (ParseParameters argv) k def = Ok def.
Proof. intros Hn. unfold GetIntArg. destruct (ParseParameters argv !! k) as [v|] eqn:E; [|done]. by apply parse_lem, Hn in E. Qed.

(** ** Known arguments *)
Lemma AddArg_lem m name help : exists key param, name = key ++ param /\ 61 ∉ key /\ (param = [] \/ exists t, param = 61 :: t) /\
  (m !! key = None -> AddArg m name help = Ok (<[key := (param, help)]> m)) /\ (is_Some (m !! key) -> AddArg m name help = Abort).
Proof.
  unfold AddArg, eq_sign. cbv zeta. set (i := match find_char 61 name with Some i => i | None => length name end). exists (take i name), (drop i name).
  split; [by rewrite take_drop|].
  assert (Hi : 61 ∉ take i name /\ (drop i name = [] \/ exists t, drop i name = 61 :: t)).
  { unfold i. destruct (find_char 61 name) as [j|] eqn:E.
    - destruct (find_some _ _ _ E) as [H1 H2]. split; [done|right]. exists (drop (S j) name).
      assert (Hl : length (take j name) = j). { assert (Hx := f_equal length H2). rewrite app_length in Hx. cbn [length] in Hx. rewrite take_length in *. lia. }
      rewrite H2 at 1. rewrite <- Hl at 1. by rewrite drop_app.
    - rewrite take_ge, drop_ge by done. split; [by apply find_none|by left]. }
  destruct Hi as [H1 H2]. split; [done|]. split; [done|]. split; [by intros ->|by intros [x ->]].
Qed.
