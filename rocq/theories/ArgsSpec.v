(** * ArgsSpec: what the command line means (specification) *)
From Verif Require Import Base.
From Coq Require Import ZArith.

(** The argument [a] sets [k] to [v]: "k=v", or "k" alone for the empty value. *)
Definition sets (a k v : list N) : Prop := 61 ∉ k /\ (a = k ++ 61 :: v \/ (a = k /\ v = [])).

(** The last argument that sets [k] sets it to [v]. *)
Definition last_set (args : list (list N)) (k v : list N) : Prop :=
  exists pre a post, args = pre ++ a :: post /\ sets a k v /\ forall b w, b ∈ post -> ~ sets b k w.

(** The value of a string of decimal digits (codes 48 to 57). *)
Fixpoint dec (ds : list N) : N :=
  match ds with
  | [] => 0
  | d :: ds' => (d - 48) * 10 ^ size ds' + dec ds'
  end.
Definition digit (c : N) : Prop := 48 <= c <= 57.
Definition space (c : N) : Prop := c = 32 \/ 9 <= c <= 13.

(** [s] starts with the decimal number [z]: white space, perhaps a sign, all the digits up
    to something else. *)
Definition starts_with (s : list N) (z : Z) : Prop :=
  exists ws sg ds rest, s = ws ++ sg ++ ds ++ rest /\ Forall space ws /\ ds <> [] /\ Forall digit ds /\ (forall c r, rest = c :: r -> ~ digit c) /\
    ((sg = [] \/ sg = [43]) /\ z = Z.of_N (dec ds) \/ sg = [45] /\ z = (- Z.of_N (dec ds))%Z).
