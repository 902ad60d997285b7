(** * PrintSpec: reading hexadecimal text (specification) *)
From stdpp Require Import strings.
From Verif Require Import Base.

(** The value of a lower case hexadecimal digit. *)
Definition hex_digit (c : Ascii.ascii) : option N :=
  let n := Ascii.N_of_ascii c in
  if (48 <=? n) && (n <=? 57) then Some (n - 48) else if (97 <=? n) && (n <=? 102) then Some (n - 87) else None.

(** The bytes written as pairs of digits. *)
Fixpoint unhex (s : string) : option (list N) :=
  match s with
  | EmptyString => Some []
  | String a (String b s') =>
      match hex_digit a, hex_digit b, unhex s' with
      | Some x, Some y, Some r => Some (16 * x + y :: r)
      | _, _, _ => None
      end
  | _ => None
  end.
