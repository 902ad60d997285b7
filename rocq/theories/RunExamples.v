(** * RunExamples: a command line of the benchmark program (examples) *)
From Verif Require Import Base ArgsModel ArgsSpec ArgsFacts RegisterModel RunModel RunSpec RunFacts.
From Coq Require Import ZArith String.

Definition argv96 : list (list N) := [text "bench"; text "-filter=b"; text "-min_time=22"; text "-asymptote=xy"].
Definition names96 : list (list N) := [text "a"; text "b"; text "c"].
(** Regular expressions without special characters; "(" is rejected. *)
Definition regex96 (r : list N) : option (list N -> bool) := if decide (r = text "(") then None else Some (λ n, bool_decide (n = r)).
Lemma run96 : bench_main (λ s, s) regex96 argv96 names96 = Ok (Some [(text "b", Some 120, Some 2000000%Z); (text "b", Some 121, Some 2000000%Z)]).
Proof. vm_compute. reflexivity. Qed.
Lemma run96_bad : (bench_main (λ s, s) regex96 [text "bench"; text "-filter=("] names96, bench_main (λ s, s) regex96 [text "bench"; text "-min_time=x"] names96,
  bench_main (λ s, s) regex96 [text "bench"; text "-min_time=x"; text "-h"] names96) = (Throw, Throw, Ok None).
Proof. vm_compute. reflexivity. Qed.
Lemma set96 k v : ParseParameters argv96 !! k = Some v -> last_set (drop 1 argv96) k v.
Proof. apply parse_lem. Qed.
Lemma help96 : ~ asks_help (drop 1 argv96) (text "-?") (text "-h").
Proof. intros [[v E%parse_lem]|[v E%parse_lem]]; vm_compute in E; discriminate E. Qed.
Lemma filter96 : value_of (drop 1 argv96) (text "-filter") (text ".*") (text "b").
Proof. left. apply set96. vm_compute. reflexivity. Qed.
Lemma asymptote96 : value_of (drop 1 argv96) (text "-asymptote") [] (text "xy").
Proof. left. apply set96. vm_compute. reflexivity. Qed.
Lemma number96 : number_of (drop 1 argv96) (text "-min_time") 10%Z 22%Z.
Proof.
  left. exists (text "22"), 22%Z. split; [apply set96; vm_compute; reflexivity|]. split; [|by left].
  exists [], [], [50; 50], []. split; [done|]. split; [constructor|]. split; [done|]. split; [unfold digit; repeat constructor; done|]. split; [done|].
  left. split; [by left|]. vm_compute. reflexivity.
Qed.
Lemma help96_yes : asks_help (drop 1 [text "bench"; text "-h"]) (text "-?") (text "-h").
Proof. right. exists []. apply parse_lem. vm_compute. reflexivity. Qed.
Lemma bad96 : ~ asks_help (drop 1 [text "bench"; text "-min_time=x"]) (text "-?") (text "-h") /\ no_number (drop 1 [text "bench"; text "-min_time=x"]) (text "-min_time").
Proof.
  split; [intros [[v E%parse_lem]|[v E%parse_lem]]; vm_compute in E; discriminate E|]. exists (text "x"). split; [apply parse_lem; vm_compute; reflexivity|].
  intros z Hz. apply stoi_number in Hz as [E1 E2]. change (stoi (text "x")) with SInvalid in *. assert (Hn : ~ int_range z) by (intros Hi; by apply E1 in Hi). by apply E2 in Hn.
Qed.

Definition benches96 : list (list N * N) := [(text "b", 1); (text "a", 2)].
Lemma all96 : NoDup benches96.*1 /\ rev benches96.*1 ≡ₚ (map_to_list (init_benchmarks benches96)).*1.
Proof.
  assert (Hn : NoDup benches96.*1) by (apply (bool_decide_eq_true_1 _); vm_compute; reflexivity). split; [exact Hn|].
  rewrite <- Permutation_rev. assert (Hr : (map_to_list (init_benchmarks benches96)).*1 = benches96.*1 \/ (map_to_list (init_benchmarks benches96)).*1 = rev benches96.*1)
    by (first [left; vm_compute; reflexivity|right; vm_compute; reflexivity]).
  destruct Hr as [->| ->]; [done|apply Permutation_rev].
Qed.
