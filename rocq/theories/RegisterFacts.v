(** * RegisterFacts: the registration of fuzz targets and benchmarks (proofs) *)
From Verif Require Import Base RegisterModel RegisterSpec ArgsExamples.
From Coq Require Import String.

(** ** Fuzz targets *)
Lemma init_targets us : FuzzCpp ∉ us -> NoDup (omap target_name us) -> forall m, (forall n, n ∈ omap target_name us -> m !! n = None) ->
  exists m', init_files (Some m) us = Ok (Some m') /\ forall n fn, m' !! n = Some fn <-> m !! n = Some fn \/ TargetFile n fn ∈ us.
Proof.
  induction us as [|u us IH]; intros Hf Hnd m Hm.
  - exists m. split; [done|]. intros n fn. split; [by left|]. intros [?|Hx]; [done|by apply elem_of_nil in Hx].
  - apply not_elem_of_cons in Hf as [Hu Hf]. destruct u as [|k g]; [done|]. cbn [omap list_omap target_name] in Hnd, Hm. apply NoDup_cons in Hnd as [Hk Hnd].
    cbn [init_files init_file RegisterFuzzTarget]. rewrite (Hm k) by left. cbn [bind].
    destruct (IH Hf Hnd (<[k := g]> m)) as (m' & E & Hm').
    { intros n Hn. rewrite lookup_insert_ne by (intros ->; done). apply Hm. by right. }
    exists m'. split; [done|]. intros n fn. rewrite Hm', elem_of_cons. destruct (decide (k = n)) as [->|Hne].
    + rewrite lookup_insert. split.
      * intros [Ex|Hx]; [injection Ex as ->; right; by left|right; by right].
      * intros [Ex|[Ex|Hx]]; [rewrite (Hm n) in Ex by left; done|injection Ex as ->; by left|by right].
    + rewrite lookup_insert_ne by done. split.
      * intros [Ex|Hx]; [by left|right; by right].
      * intros [Ex|[Ex|Hx]]; [by left|injection Ex as -> ->; done|by right].
Qed.
Lemma fuzz_first us n : FuzzCpp ∉ us -> NoDup (omap target_name us) ->
  (forall fn, TargetFile n fn ∈ us -> fuzz_start (FuzzCpp :: us) (Some n) = Ok fn) /\
  ((forall fn, TargetFile n fn ∉ us) -> fuzz_start (FuzzCpp :: us) (Some n) = Abort) /\ fuzz_start (FuzzCpp :: us) None = UB.
Proof.
  intros Hf Hnd. destruct (init_targets us Hf Hnd ∅) as (m & E & Hm); [intros; apply lookup_empty|].
  unfold fuzz_start. cbn [init_files init_file bind]. rewrite E. cbn [bind LLVMFuzzerInitialize]. split; [|split; [|done]].
  - intros fn Hin. by rewrite (proj2 (Hm n fn)) by (by right).
  - intros Hno. destruct (m !! n) as [fn|] eqn:Em; [|done]. apply Hm in Em as [Em|Em]; [by rewrite lookup_empty in Em|by destruct (Hno fn)].
Qed.
Lemma init_twice us : FuzzCpp ∉ us -> forall m, ~ (NoDup (omap target_name us) /\ forall n, n ∈ omap target_name us -> m !! n = None) -> init_files (Some m) us = Abort.
Proof.
  induction us as [|u us IH]; intros Hf m Hn.
  - destruct Hn. split; [constructor|]. intros n Hx. by apply elem_of_nil in Hx.
  - apply not_elem_of_cons in Hf as [Hu Hf]. destruct u as [|k g]; [done|]. cbn [omap list_omap target_name] in Hn.
    cbn [init_files init_file RegisterFuzzTarget]. destruct (m !! k) as [x|] eqn:Ek; [done|]. cbn [bind]. apply (IH Hf). intros [Hnd Hm]. apply Hn. split.
    + apply NoDup_cons. split; [|done]. intros Hk. apply Hm in Hk. by rewrite lookup_insert in Hk.
    + intros n [->|Hin]%elem_of_cons; [done|]. specialize (Hm n Hin). destruct (decide (k = n)) as [->|Hne]; [done|]. by rewrite lookup_insert_ne in Hm.
Qed.
Lemma fuzz_twice us env : FuzzCpp ∉ us -> ~ NoDup (omap target_name us) -> fuzz_start (FuzzCpp :: us) env = Abort.
Proof. intros Hf Hn. unfold fuzz_start. cbn [init_files init_file bind]. rewrite (init_twice us Hf ∅); [done|]. by intros [? _]. Qed.
Lemma fuzz_later n fn us env : fuzz_start (TargetFile n fn :: us) env = UB.
Proof. done. Qed.

(** ** Benchmarks *)
Lemma runner_empty b : BenchRunner ∅ b = <[b.1 := b.2]> ∅.
Proof. unfold BenchRunner. by rewrite lookup_empty. Qed.
Lemma bench_step bs : forall m n, fold_left BenchRunner bs m !! n = match m !! n with Some f => Some f | None => fold_left BenchRunner bs ∅ !! n end.
Proof.
  induction bs as [|[k g] bs IH]; intros m n; cbn [fold_left]; [rewrite lookup_empty; by destruct (m !! n)|].
  rewrite (IH (BenchRunner m (k, g))), (IH (BenchRunner ∅ (k, g))), runner_empty. unfold BenchRunner at 1. cbn [fst snd]. destruct (m !! k) as [x|] eqn:Ek.
  - destruct (decide (k = n)) as [->|Hne]; [by rewrite Ek|]. by rewrite lookup_insert_ne, lookup_empty by done.
  - destruct (decide (k = n)) as [->|Hne]; [by rewrite !lookup_insert, Ek|]. by rewrite !lookup_insert_ne, lookup_empty by done.
Qed.
Lemma bench_lem bs : NoDup bs.*1 -> forall n f, init_benchmarks bs !! n = Some f <-> (n, f) ∈ bs.
Proof.
  unfold init_benchmarks. induction bs as [|[k g] bs IH]; intros Hnd n f; cbn [fold_left].
  - rewrite lookup_empty. split; [done|]. by intros Hx%elem_of_nil.
  - assert (Hnd' := Hnd). rewrite fmap_cons in Hnd'. apply NoDup_cons in Hnd' as [Hk Hnd']. rewrite bench_step, runner_empty, elem_of_cons. cbn [fst snd] in *.
    destruct (decide (k = n)) as [->|Hne].
    + rewrite lookup_insert. split; [intros Ex; injection Ex as ->; by left|]. intros [Ex|Hx]; [by injection Ex as ->|]. destruct Hk. apply elem_of_list_fmap. by exists (n, f).
    + rewrite lookup_insert_ne, lookup_empty, IH by done. split; [by right|]. intros [Ex|Hx]; [injection Ex as -> ->; done|done].
Qed.
Lemma bench_order bs bs' : NoDup bs.*1 -> bs ≡ₚ bs' -> init_benchmarks bs = init_benchmarks bs'.
Proof.
  intros Hnd Hp. assert (Hnd' : NoDup bs'.*1) by (by rewrite <- Hp). apply map_eq. intros n. apply option_eq. intros f. rewrite !bench_lem by done. by rewrite Hp.
Qed.

Lemma bench_first bs n f : init_benchmarks bs !! n = Some f <-> exists pre post, bs = pre ++ (n, f) :: post /\ n ∉ pre.*1.
Proof.
  unfold init_benchmarks. induction bs as [|[k g] bs IH]; cbn [fold_left].
  - rewrite lookup_empty. split; [done|]. intros (pre & post & E & _). by destruct pre.
  - rewrite bench_step, runner_empty. cbn [fst snd]. destruct (decide (k = n)) as [->|Hne].
    + rewrite lookup_insert. split.
      * intros Ex. injection Ex as ->. exists [], bs. split; [done|]. apply not_elem_of_nil.
      * intros (pre & post & E & Hn). destruct pre as [|x pre]; [by injection E as ->|]. injection E as <- _. destruct Hn. rewrite fmap_cons. by left.
    + rewrite lookup_insert_ne, lookup_empty, IH by done. split.
      * intros (pre & post & -> & Hn). exists ((k, g) :: pre), post. split; [done|]. rewrite fmap_cons. apply not_elem_of_cons. by split.
      * intros (pre & post & E & Hn). destruct pre as [|x pre]; [injection E as -> -> _; done|]. injection E as <- ->. exists pre, post. split; [done|]. rewrite fmap_cons in Hn. by apply not_elem_of_cons in Hn as [_ ?].
Qed.
Lemma benchmarks_lem bs : NoDup bs.*1 -> (forall n f, init_benchmarks bs !! n = Some f <-> (n, f) ∈ bs) /\
  forall bs', bs ≡ₚ bs' -> init_benchmarks bs = init_benchmarks bs'.
Proof. intros Hnd. split; [by apply bench_lem|]. intros bs'. by apply bench_order. Qed.

(** ** Examples *)
(** The files of sources.mk:31-35, in this order. *)
Definition files94 : list fuzz_file := [FuzzCpp; TargetFile (txt "forest_state") 1; TargetFile (txt "batchproof") 2; TargetFile (txt "pollard") 3].
Definition bad94 : list fuzz_file := [TargetFile (txt "forest_state") 1; FuzzCpp; TargetFile (txt "batchproof") 2; TargetFile (txt "pollard") 3].
Lemma run94 : (fuzz_start files94 (Some (txt "batchproof")), fuzz_start files94 (Some (txt "x")), fuzz_start files94 None) = (Ok 2, Abort, UB).
Proof. vm_compute. reflexivity. Qed.
Lemma ok94 : FuzzCpp ∉ drop 1 files94 /\ NoDup (omap target_name (drop 1 files94)).
Proof.
  split; [|apply (bool_decide_unpack _); by vm_compute]. unfold files94. cbn [drop]. intros Hx. repeat (apply elem_of_cons in Hx as [Hx|Hx]; [discriminate Hx|]). by apply elem_of_nil in Hx.
Qed.
Lemma refuted94 : exists us us' n fn, us ≡ₚ us' /\ fuzz_start us (Some n) = Ok fn /\ fuzz_start us' (Some n) = UB.
Proof.
  exists files94, bad94, (txt "batchproof"), 2. split; [apply perm_swap|]. split; [vm_compute; reflexivity|done].
Qed.
Definition benches95 : list (list N * N) := [(txt "VerifyElementsPollard", 1); (txt "RestorePollard", 2); (txt "AddElementsForest", 3)].
Lemma run95 : NoDup benches95.*1 /\ init_benchmarks benches95 !! txt "RestorePollard" = Some 2.
Proof. split; [apply (bool_decide_unpack _); by vm_compute|vm_compute; reflexivity]. Qed.
Lemma twice94 : FuzzCpp ∉ [TargetFile (txt "pollard") 1; TargetFile (txt "pollard") 2] /\ ~ NoDup (omap target_name [TargetFile (txt "pollard") 1; TargetFile (txt "pollard") 2]).
Proof.
  split.
  - intros Hx. repeat (apply elem_of_cons in Hx as [Hx|Hx]; [discriminate Hx|]). by apply elem_of_nil in Hx.
  - cbn [omap list_omap target_name]. intros [Hx _]%NoDup_cons. destruct Hx. by left.
Qed.
Lemma twice95 : init_benchmarks [(txt "a", 1); (txt "b", 2); (txt "a", 3)] !! txt "a" = Some 1.
Proof. vm_compute. reflexivity. Qed.
