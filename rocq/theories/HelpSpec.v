(** * HelpSpec: what the help message should show (specification) *)
From Verif Require Import Base.

(** [k] is [name] up to its first equality sign. *)
Definition key_of (k name : list N) : Prop := 61 ∉ k /\ (name = k \/ exists t, name = (k ++ 61 :: t)%list).
(** Two spaces, the name, a new line, seven spaces, the text, and an empty line. *)
Definition shown (a : list N * list N) : list N := ([32; 32] ++ a.1 ++ [10; 32; 32; 32; 32; 32; 32; 32] ++ a.2 ++ [10; 10])%list.
