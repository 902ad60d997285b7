(** * RunModel: the benchmark program from its command line to its calls (model)

    main of src/bench/bench_utreexo.cpp and BenchRunner::RunAll of src/bench/bench.cpp.  The
    list of numbers read with iostream (parseAsymptote) and the regular expressions are
    parameters.  What is written to the output and the timing itself are left out: the
    result is the list of calls of benchmarks. *)
From Verif Require Import Base ArgsModel.
From Coq Require Import ZArith Ascii String.

(** The character codes of a text. *)
Definition text (s : string) : list N := N_of_ascii <$> list_ascii_of_string s.

(** bench_utreexo.cpp:14-21 SetupBenchArgs, without the help texts. *)
Definition setup_bench : res (gmap (list N) (list N * list N)) :=
  let* m := AddArg ∅ (text "-asymptote=<n1,n2,n3,...>") [] in
  let* m := AddArg m (text "-filter=<regex>") [] in
  let* m := AddArg m (text "-min_time=<milliseconds>") [] in
  AddArg m (text "-?") [].

Section Run.
Context {A : Type}.
(** bench_utreexo.cpp:24-35 parseAsymptote. *)
Context (parseAsymptote : list N -> list A).
(** std::regex and regex_match; [None] is a regular expression the constructor rejects. *)
Context (regex : list N -> option (list N -> bool)).

(** A call of a benchmark: its name, the value of complexityN if set, and the minimal epoch
    time in nanoseconds if set. *)
Definition call : Type := list N * option A * option Z.

(** Multiplication of [int64_t], in the conversion from milliseconds. *)
Definition mul_i64 (a b : Z) : res Z :=
  if ((-9223372036854775808 <=? a * b) && (a * b <=? 9223372036854775807))%Z then Ok (a * b)%Z else UB.

(** bench.cpp:39-43: the minimal time of an epoch; epochs() is 11 (nanobench.h:386).  The
    division is one of [size_t], after a conversion that keeps a positive number. *)
Definition epoch_time (min_time : Z) : res (option Z) :=
  if (0 <? min_time)%Z then let* ns := mul_i64 min_time 1000000 in Ok (Some (ns / 11)%Z) else Ok None.

(** bench.cpp:32-58: the loop over the map; [names] are its keys in their order. *)
Fixpoint run_loop (matches : list N -> bool) (min_time : Z) (asymptote : list A) (names : list (list N)) : res (list call) :=
  match names with
  | [] => Ok []
  | n :: names' =>
      if matches n then
        let* e := epoch_time min_time in
        let calls := match asymptote with [] => [(n, None, e)] | _ => (λ x, (n, Some x, e)) <$> asymptote end in
        let* rest := run_loop matches min_time asymptote names' in
        Ok (calls ++ rest)
      else run_loop matches min_time asymptote names'
  end.

(** bench.cpp:26-59 RunAll.  The exception of std::regex is not caught. *)
Definition RunAll (filter : list N) (min_time : Z) (asymptote : list A) (names : list (list N)) : res (list call) :=
  match regex filter with
  | None => Throw
  | Some matches => run_loop matches min_time asymptote names
  end.

(** bench_utreexo.cpp:37-103 main; [None] if the help text is shown. *)
Definition bench_main (argv : list (list N)) (names : list (list N)) : res (option (list call)) :=
  let* _ := setup_bench in
  let m := ParseParameters argv in
  if IsArgSet m (text "-?") || IsArgSet m (text "-h") then Ok None else
  let asymptote := parseAsymptote (GetArg m (text "-asymptote") []) in
  let* min_time := GetIntArg m (text "-min_time") 10%Z in
  let filter := GetArg m (text "-filter") (text ".*") in
  let* calls := RunAll filter min_time asymptote names in
  Ok (Some calls).
End Run.
