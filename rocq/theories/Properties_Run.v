(** * Property C96: the benchmark program (theorems) *)
From Verif Require Import Base RegisterModel RunModel RunSpec RunFacts RunExamples.
From Coq Require Import ZArith String.

(** With "-?" or "-h" the program shows its help and runs nothing. *)
Theorem C96_help {A} (parseAsymptote : list N -> list A) regex argv names : asks_help (drop 1 argv) (text "-?") (text "-h") ->
  bench_main parseAsymptote regex argv names = Ok None.
Proof. exact (main_help parseAsymptote regex argv names). Qed.
Print Assumptions C96_help.

Example C96_help_example : asks_help (drop 1 [text "bench"; text "-h"]) (text "-?") (text "-h").
Proof. exact help96_yes. Qed.

(** Otherwise a minimal time that is no number ends it with an exception. *)
Theorem C96_no_number {A} (parseAsymptote : list N -> list A) regex argv names : ~ asks_help (drop 1 argv) (text "-?") (text "-h") ->
  no_number (drop 1 argv) (text "-min_time") -> bench_main parseAsymptote regex argv names = Throw.
Proof. exact (main_no_number parseAsymptote regex argv names). Qed.
Print Assumptions C96_no_number.

Example C96_no_number_example : ~ asks_help (drop 1 [text "bench"; text "-min_time=x"]) (text "-?") (text "-h") /\
  no_number (drop 1 [text "bench"; text "-min_time=x"]) (text "-min_time").
Proof. exact bad96. Qed.

(** Otherwise it runs exactly the benchmarks that match the filter, in the order of the map,
    once or once for each number of the asymptote, with the minimal time given; or it ends
    with an exception if the filter is no regular expression.  No overflow can happen. *)
Theorem C96_runs {A} (parseAsymptote : list N -> list A) regex argv names flt asy t :
  ~ asks_help (drop 1 argv) (text "-?") (text "-h") -> value_of (drop 1 argv) (text "-filter") (text ".*") flt ->
  value_of (drop 1 argv) (text "-asymptote") [] asy -> number_of (drop 1 argv) (text "-min_time") 10%Z t ->
  (regex flt = None -> bench_main parseAsymptote regex argv names = Throw) /\
  forall mt, regex flt = Some mt -> exists l, bench_main parseAsymptote regex argv names = Ok (Some l) /\
    (forall n a e, (n, a, e) ∈ l <-> n ∈ names /\ mt n = true /\ (parseAsymptote asy = [] /\ a = None \/ exists x, x ∈ parseAsymptote asy /\ a = Some x) /\
      e = if (0 <? t)%Z then Some (t * 1000000 / 11)%Z else None) /\
    (parseAsymptote asy = [] -> (λ c : call, c.1.1) <$> l = filter (λ n, mt n = true) names) /\
    (parseAsymptote asy <> [] -> (λ c : call, c.1) <$> l = mjoin ((λ n, (λ x, (n, Some x)) <$> parseAsymptote asy) <$> filter (λ n, mt n = true) names)).
Proof. exact (main_runs parseAsymptote regex argv names flt asy t). Qed.
Print Assumptions C96_runs.

Example C96_example : (~ asks_help (drop 1 argv96) (text "-?") (text "-h")) /\ value_of (drop 1 argv96) (text "-filter") (text ".*") (text "b") /\
  value_of (drop 1 argv96) (text "-asymptote") [] (text "xy") /\ number_of (drop 1 argv96) (text "-min_time") 10%Z 22%Z /\
  bench_main (λ s, s) regex96 argv96 names96 = Ok (Some [(text "b", Some 120, Some 2000000%Z); (text "b", Some 121, Some 2000000%Z)]).
Proof. split; [exact help96|]. split; [exact filter96|]. split; [exact asymptote96|]. split; [exact number96|exact run96]. Qed.

(** Without arguments all the benchmarks of the program run, each once, for 10 ms. *)
Theorem C96_all {A} (parseAsymptote : list N -> list A) regex bs names prog mt : NoDup bs.*1 -> names ≡ₚ (map_to_list (init_benchmarks bs)).*1 ->
  regex (text ".*") = Some mt -> (forall n, mt n = true) -> parseAsymptote [] = [] ->
  names ≡ₚ bs.*1 /\ bench_main parseAsymptote regex [prog] names = Ok (Some ((λ n, (n, None, Some 909090%Z)) <$> names)).
Proof. exact (main_all parseAsymptote regex bs names prog mt). Qed.
Print Assumptions C96_all.

Example C96_all_example : NoDup benches96.*1 /\ rev benches96.*1 ≡ₚ (map_to_list (init_benchmarks benches96)).*1.
Proof. exact all96. Qed.
