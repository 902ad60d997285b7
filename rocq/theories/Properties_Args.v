(** * Properties C90 to C92: the command line of the benchmark program (theorems) *)
From Verif Require Import Base ArgsModel ArgsSpec ArgsFacts ArgsExamples.
From Coq Require Import ZArith String.

(** C90: the last argument that sets a name decides; a name is set exactly if some argument
    sets it. *)
Theorem C90_args argv k def : (forall v, last_set (drop 1 argv) k v -> GetArg (ParseParameters argv) k def = v /\ IsArgSet (ParseParameters argv) k = true) /\
  ((forall v, ~ last_set (drop 1 argv) k v) -> GetArg (ParseParameters argv) k def = def /\ IsArgSet (ParseParameters argv) k = false).
Proof. exact (args_lem argv k def). Qed.
Print Assumptions C90_args.
Theorem C90_is_set argv k : (exists v, last_set (drop 1 argv) k v) <-> exists a v, a ∈ drop 1 argv /\ sets a k v.
Proof. exact (last_set_ex (drop 1 argv) k). Qed.
Print Assumptions C90_is_set.

(** "-filter=Add -min_time=5 -filter=a=b -h": the filter is "a=b". *)
Example C90_example : last_set (drop 1 argv90) (txt "-filter") (txt "a=b") /\ (forall v, ~ last_set (drop 1 argv90) (txt "-asymptote") v) /\
  run90 = (txt "a=b", [], true, false).
Proof. split; [exact set90|]. split; [exact unset90|exact run90_ok]. Qed.

(** C91: args.h:59 promises 0 for an invalid number and the number otherwise.  Instead
    std::invalid_argument leaves GetIntArg, and nothing catches it ("-min_time=abc"). *)
Theorem C91_int_arg_refuted : exists argv k def v, last_set (drop 1 argv) k v /\ (forall z, ~ starts_with v z) /\ GetIntArg (ParseParameters argv) k def = Throw.
Proof. exact refuted91. Qed.
Print Assumptions C91_int_arg_refuted.

(** A number that does not fit an [int] is dropped for the default, though the result has
    64 bits ("-min_time=2147483648"). *)
Theorem C91_int_arg_range_refuted : exists argv k def v z, last_set (drop 1 argv) k v /\ starts_with v z /\ z <> def /\ GetIntArg (ParseParameters argv) k def = Ok def.
Proof. exact refuted91'. Qed.
Print Assumptions C91_int_arg_range_refuted.

(** What it does: exactly these cases. *)
Theorem C91_int_arg_exact argv k def v : last_set (drop 1 argv) k v ->
  (forall z, starts_with v z -> (-2147483648 <= z <= 2147483647)%Z -> GetIntArg (ParseParameters argv) k def = Ok z) /\
  (forall z, starts_with v z -> ~ (-2147483648 <= z <= 2147483647)%Z -> GetIntArg (ParseParameters argv) k def = Ok def) /\
  ((forall z, ~ starts_with v z) -> GetIntArg (ParseParameters argv) k def = Throw).
Proof. exact (int_lem argv k def v). Qed.
Print Assumptions C91_int_arg_exact.
Theorem C91_int_arg_default argv k def : (forall v, ~ last_set (drop 1 argv) k v) -> GetIntArg (ParseParameters argv) k def = Ok def.
Proof. exact (int_default argv k def). Qed.
Print Assumptions C91_int_arg_default.

(** The values "7x", " -20", "2147483648" and the empty one. *)
Example C91_example : last_set (drop 1 (arg91 "2147483648")) (txt "-min_time") (txt "2147483648") /\ starts_with (txt "2147483648") 2147483648 /\
  (run91 "7x", run91 " -20", run91 "2147483648", run91 "") = (Ok 7%Z, Ok (-20)%Z, Ok 10%Z, Throw).
Proof. split; [exact set91'|]. split; [exact number91|exact run91_ok]. Qed.

(** C92: AddArg cuts the name before the first equality sign, and aborts exactly if that
    name was added before. *)
Theorem C92_add_arg m name help : exists key param, name = (key ++ param)%list /\ 61 ∉ key /\ (param = [] \/ exists t, param = 61 :: t) /\
  (m !! key = None -> AddArg m name help = Ok (<[key := (param, help)]> m)) /\ (is_Some (m !! key) -> AddArg m name help = Abort).
Proof. exact (AddArg_lem m name help). Qed.
Print Assumptions C92_add_arg.

(** The arguments of the program are added; "-filter" a second time aborts. *)
Example C92_example : run92 = Ok (Some (txt "=<regex>", []), Some ([], []), Abort).
Proof. exact run92_ok. Qed.
