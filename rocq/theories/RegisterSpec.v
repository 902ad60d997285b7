(** * RegisterSpec: the names of fuzz targets (specification) *)
From Verif Require Import Base RegisterModel.

(** The name of the target in a file. *)
Definition target_name (u : fuzz_file) : option (list N) := match u with FuzzCpp => None | TargetFile n _ => Some n end.
