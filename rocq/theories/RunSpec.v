(** * RunSpec: what the benchmark program is asked to do (specification) *)
From Verif Require Import Base ArgsSpec.
From Coq Require Import ZArith.

(** The value of [k] on the command line, or its default. *)
Definition value_of (args : list (list N)) (k def v : list N) : Prop :=
  last_set args k v \/ (forall w, ~ last_set args k w) /\ v = def.
(** The number given for [k]; the default also stands for a number that does not fit an int. *)
Definition number_of (args : list (list N)) (k : list N) (def z : Z) : Prop :=
  (exists v x, last_set args k v /\ starts_with v x /\ ((-2147483648 <= x <= 2147483647)%Z /\ z = x \/ ~ (-2147483648 <= x <= 2147483647)%Z /\ z = def)) \/
  (forall w, ~ last_set args k w) /\ z = def.
(** [k] is given a value that is no number. *)
Definition no_number (args : list (list N)) (k : list N) : Prop := exists v, last_set args k v /\ forall z, ~ starts_with v z.
Definition asks_help (args : list (list N)) (k1 k2 : list N) : Prop := (exists v, last_set args k1 v) \/ exists v, last_set args k2 v.
