(** * RunFacts: the benchmark program (proofs) *)
From Verif Require Import Base ArgsModel ArgsSpec ArgsFacts RegisterModel RegisterSpec RegisterFacts RunModel RunSpec.
From Coq Require Import ZArith String.

Lemma value_get argv k def v : value_of (drop 1 argv) k def v -> GetArg (ParseParameters argv) k def = v.
Proof. destruct (args_lem argv k def) as [H1 H2]. intros [Hv|[Hn ->]]; [by apply H1|by apply H2]. Qed.
Lemma number_get argv k def z : number_of (drop 1 argv) k def z -> GetIntArg (ParseParameters argv) k def = Ok z.
Proof.
  intros [(v & x & Hv & Hx & [[Hr ->]|[Hr ->]])|[Hn ->]].
  - by apply (int_lem argv k def v Hv).
  - by apply (int_lem argv k def v Hv) with (z := x).
  - by apply int_default.
Qed.
Lemma number_range args k z : number_of args k 10%Z z -> (-2147483648 <= z <= 2147483647)%Z.
Proof. intros [(v & x & _ & _ & [[Hr ->]|[_ ->]])|[_ ->]]; [done|lia|lia]. Qed.
Lemma set_dec argv k : (exists v, last_set (drop 1 argv) k v) \/ forall v, ~ last_set (drop 1 argv) k v.
Proof.
  destruct (ParseParameters argv !! k) as [v|] eqn:E; [left; exists v; by apply parse_lem|right]. intros v Hv%parse_lem. congruence.
Qed.
Lemma help_get argv k1 k2 : asks_help (drop 1 argv) k1 k2 -> IsArgSet (ParseParameters argv) k1 || IsArgSet (ParseParameters argv) k2 = true.
Proof.
  destruct (args_lem argv k1 []) as [H1 _]. destruct (args_lem argv k2 []) as [H2 _]. intros [[v Hv]|[v Hv]]; [by rewrite (proj2 (H1 v Hv))|]. rewrite (proj2 (H2 v Hv)). apply orb_true_r.
Qed.
Lemma no_help_get argv k1 k2 : ~ asks_help (drop 1 argv) k1 k2 -> IsArgSet (ParseParameters argv) k1 || IsArgSet (ParseParameters argv) k2 = false.
Proof.
  destruct (args_lem argv k1 []) as [_ H1]. destruct (args_lem argv k2 []) as [_ H2]. unfold asks_help. intros Hn.
  rewrite (proj2 (H1 ltac:(intros v Hv; apply Hn; left; by exists v))), (proj2 (H2 ltac:(intros v Hv; apply Hn; right; by exists v))). done.
Qed.

Lemma setup_ok : exists m, setup_bench = Ok m.
Proof. eexists. vm_compute. reflexivity. Qed.

Section Run.
Context {A : Type} (parseAsymptote : list N -> list A) (regex : list N -> option (list N -> bool)).

Definition etime (t : Z) : option Z := if (0 <? t)%Z then Some (t * 1000000 / 11)%Z else None.
Lemma epoch_ok t : (-2147483648 <= t <= 2147483647)%Z -> epoch_time t = Ok (etime t).
Proof.
  intros Ht. unfold epoch_time, etime. destruct (0 <? t)%Z eqn:E; [|done]. unfold mul_i64.
  destruct (-9223372036854775808 <=? t * 1000000)%Z eqn:E1; [|apply Z.leb_gt in E1; lia]. destruct (t * 1000000 <=? 9223372036854775807)%Z eqn:E2; [done|apply Z.leb_gt in E2; lia].
Qed.
Lemma loop_ok mt t (asy : list A) names : (-2147483648 <= t <= 2147483647)%Z -> exists l, run_loop mt t asy names = Ok l /\
  (forall n a e, (n, a, e) ∈ l <-> n ∈ names /\ mt n = true /\ (asy = [] /\ a = None \/ exists x, x ∈ asy /\ a = Some x) /\ e = etime t) /\
  (asy = [] -> (λ c : call, c.1.1) <$> l = filter (λ n, mt n = true) names) /\
  (asy <> [] -> (λ c : call, c.1) <$> l = mjoin ((λ n, (λ x, (n, Some x)) <$> asy) <$> filter (λ n, mt n = true) names)).
Proof.
  intros Ht. induction names as [|n names (l & E & Hl & Hf & Hg)]; cbn [run_loop].
  { exists []. split; [done|]. split; [|by split]. intros n a e. split; [by intros Hx%elem_of_nil|]. by intros [Hx%elem_of_nil _]. }
  destruct (mt n) eqn:Em.
  - rewrite epoch_ok by done. cbn [bind]. rewrite E. cbn [bind]. eexists. split; [done|]. split.
    + intros k a e. rewrite elem_of_app, Hl, elem_of_cons.
      assert (Hc : (k, a, e) ∈ match asy with [] => [(n, None, etime t)] | _ => (λ x, (n, Some x, etime t)) <$> asy end <->
        k = n /\ (asy = [] /\ a = None \/ exists x, x ∈ asy /\ a = Some x) /\ e = etime t).
      { destruct asy as [|y asy].
        - rewrite elem_of_list_singleton. split.
          + intros Ex. injection Ex as -> -> ->. split; [done|]. split; [by left|done].
          + intros (-> & [[_ ->]|(x & Hx & _)] & ->); [done|by apply elem_of_nil in Hx].
        - rewrite elem_of_list_fmap. split.
          + intros (x & Ex & Hx). injection Ex as -> -> ->. split; [done|]. split; [right; by exists x|done].
          + intros (-> & [[? _]|(x & Hx & ->)] & ->); [done|by exists x]. }
      rewrite Hc. split.
      * intros [(-> & Ha & He)|(Hk & Hm & Ha & He)]; [split; [by left|done]|split; [by right|done]].
      * intros ([->|Hk] & Hm & Ha & He); [by left|by right].
    + split.
      * intros ->. rewrite fmap_app, Hf, filter_cons_True by done. done.
      * intros Hne. rewrite fmap_app, Hg, filter_cons_True by done. cbn [fmap list_fmap mjoin list_join]. f_equal.
        destruct asy as [|y asy]; [done|]. by rewrite <- list_fmap_compose.
  - exists l. split; [done|]. split.
    + intros k a e. rewrite Hl, elem_of_cons. split; [intros (Hk & ?); split; [by right|done]|]. intros ([->|Hk] & Hm & ?); [congruence|done].
    + rewrite filter_cons_False by congruence. by split.
Qed.
Lemma main_help argv names : asks_help (drop 1 argv) (text "-?") (text "-h") -> bench_main parseAsymptote regex argv names = Ok None.
Proof. intros Hh. unfold bench_main. destruct setup_ok as [m0 ->]. cbn [bind]. cbv zeta. by rewrite help_get. Qed.
Lemma main_no_number argv names : ~ asks_help (drop 1 argv) (text "-?") (text "-h") -> no_number (drop 1 argv) (text "-min_time") ->
  bench_main parseAsymptote regex argv names = Throw.
Proof.
  intros Hh (v & Hv & Hn). unfold bench_main. destruct setup_ok as [m0 ->]. cbn [bind]. cbv zeta. rewrite no_help_get by done. destruct (int_lem argv (text "-min_time") 10%Z v Hv) as (_ & _ & E). by rewrite (E Hn).
Qed.
Lemma main_runs argv names flt asy t : ~ asks_help (drop 1 argv) (text "-?") (text "-h") -> value_of (drop 1 argv) (text "-filter") (text ".*") flt ->
  value_of (drop 1 argv) (text "-asymptote") [] asy -> number_of (drop 1 argv) (text "-min_time") 10%Z t ->
  (regex flt = None -> bench_main parseAsymptote regex argv names = Throw) /\
  forall mt, regex flt = Some mt -> exists l, bench_main parseAsymptote regex argv names = Ok (Some l) /\
    (forall n a e, (n, a, e) ∈ l <-> n ∈ names /\ mt n = true /\ (parseAsymptote asy = [] /\ a = None \/ exists x, x ∈ parseAsymptote asy /\ a = Some x) /\
      e = if (0 <? t)%Z then Some (t * 1000000 / 11)%Z else None) /\
    (parseAsymptote asy = [] -> (λ c : call, c.1.1) <$> l = filter (λ n, mt n = true) names) /\
    (parseAsymptote asy <> [] -> (λ c : call, c.1) <$> l = mjoin ((λ n, (λ x, (n, Some x)) <$> parseAsymptote asy) <$> filter (λ n, mt n = true) names)).
Proof.
  intros Hh Hf Ha Ht. unfold bench_main. destruct setup_ok as [m0 ->]. cbn [bind]. cbv zeta. rewrite no_help_get by done. rewrite (value_get _ _ _ _ Hf), (value_get _ _ _ _ Ha), (number_get _ _ _ _ Ht). cbn [bind]. unfold RunAll. split.
  - by intros ->.
  - intros mt ->. destruct (loop_ok mt t (parseAsymptote asy) names (number_range _ _ _ Ht)) as (l & E & Hl). rewrite E. by exists l.
Qed.

Lemma loop_all mt t names e : (forall n, mt n = true) -> epoch_time t = Ok e -> run_loop (A:=A) mt t [] names = Ok ((λ n, (n, None, e)) <$> names).
Proof. intros Hm He. induction names as [|n names IH]; cbn [run_loop]; [done|]. rewrite Hm, He. cbn [bind]. rewrite IH. done. Qed.
Lemma main_all bs names prog mt : NoDup bs.*1 -> names ≡ₚ (map_to_list (init_benchmarks bs)).*1 -> regex (text ".*") = Some mt -> (forall n, mt n = true) -> parseAsymptote [] = [] ->
  names ≡ₚ bs.*1 /\ bench_main parseAsymptote regex [prog] names = Ok (Some ((λ n, (n, None, Some 909090%Z)) <$> names)).
Proof.
  intros Hnd HP Hr Hm Ha. split.
  - rewrite HP. apply fmap_Permutation, NoDup_Permutation; [apply NoDup_map_to_list|by eapply NoDup_fmap_1|]. intros [n f]. rewrite elem_of_map_to_list. apply (benchmarks_lem bs Hnd).
  - unfold bench_main. destruct setup_ok as [m0 ->]. cbn [bind]. change (ParseParameters [prog]) with (∅ : gmap (list N) (list N)). cbv zeta.
    unfold IsArgSet, GetArg, GetIntArg. rewrite !lookup_empty. cbn [orb bind]. unfold RunAll. rewrite Hr, Ha. rewrite (loop_all _ _ _ (Some 909090%Z)) by done. done.
Qed.
End Run.
