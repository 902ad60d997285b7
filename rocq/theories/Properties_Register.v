(** * Properties C94 and C95: registration (theorems) *)
From Verif Require Import Base RegisterModel RegisterSpec ArgsExamples RegisterFacts.
From Coq Require Import String.

(** C94 is false: whether a fuzz target is found depends on the order in which the files
    of the program are initialised, which C++ leaves open. *)
Theorem C94_fuzz_targets_refuted : exists us us' n fn, us ≡ₚ us' /\ fuzz_start us (Some n) = Ok fn /\ fuzz_start us' (Some n) = UB.
Proof. exact refuted94. Qed.
Print Assumptions C94_fuzz_targets_refuted.

(** If fuzz.cpp is initialised first, as in the order of sources.mk, a name selects its
    target and any other name fails the assertion; without a name the start is undefined. *)
Theorem C94_fuzz_targets_first us n : FuzzCpp ∉ us -> NoDup (omap target_name us) ->
  (forall fn, TargetFile n fn ∈ us -> fuzz_start (FuzzCpp :: us) (Some n) = Ok fn) /\
  ((forall fn, TargetFile n fn ∉ us) -> fuzz_start (FuzzCpp :: us) (Some n) = Abort) /\ fuzz_start (FuzzCpp :: us) None = UB.
Proof. exact (fuzz_first us n). Qed.
Print Assumptions C94_fuzz_targets_first.

(** If a file with a target is initialised first, the start is undefined. *)
Theorem C94_fuzz_targets_later n fn us env : fuzz_start (TargetFile n fn :: us) env = UB.
Proof. exact (fuzz_later n fn us env). Qed.
Print Assumptions C94_fuzz_targets_later.

(** Two targets of the same name are noticed. *)
Theorem C94_fuzz_targets_twice us env : FuzzCpp ∉ us -> ~ NoDup (omap target_name us) -> fuzz_start (FuzzCpp :: us) env = Abort.
Proof. exact (fuzz_twice us env). Qed.
Print Assumptions C94_fuzz_targets_twice.

Example C94_twice_example : FuzzCpp ∉ [TargetFile (txt "pollard") 1; TargetFile (txt "pollard") 2] /\
  ~ NoDup (omap target_name [TargetFile (txt "pollard") 1; TargetFile (txt "pollard") 2]).
Proof. exact twice94. Qed.

Example C94_example : FuzzCpp ∉ drop 1 files94 /\ NoDup (omap target_name (drop 1 files94)) /\
  (fuzz_start files94 (Some (txt "batchproof")), fuzz_start files94 (Some (txt "x")), fuzz_start files94 None) = (Ok 2, Abort, UB).
Proof. split; [exact (proj1 ok94)|]. split; [exact (proj2 ok94)|exact run94]. Qed.

(** C95: the benchmarks are all registered, in whichever order. *)
Theorem C95_benchmarks bs : NoDup bs.*1 -> (forall n f, init_benchmarks bs !! n = Some f <-> (n, f) ∈ bs) /\
  forall bs', bs ≡ₚ bs' -> init_benchmarks bs = init_benchmarks bs'.
Proof. exact (benchmarks_lem bs). Qed.
Print Assumptions C95_benchmarks.

Example C95_example : NoDup benches95.*1 /\ init_benchmarks benches95 !! txt "RestorePollard" = Some 2.
Proof. exact run95. Qed.

(** Of several with the same name the first stays. *)
Theorem C95_first bs n f : init_benchmarks bs !! n = Some f <-> exists pre post, bs = (pre ++ (n, f) :: post)%list /\ n ∉ pre.*1.
Proof. exact (bench_first bs n f). Qed.
Print Assumptions C95_first.

Example C95_first_example : init_benchmarks [(txt "a", 1); (txt "b", 2); (txt "a", 3)] !! txt "a" = Some 1.
Proof. exact twice95. Qed.
