(** * ReuseModel: an object of class CSHA512 used again (sha512.cpp:182-243)

    Sha512Model gives the digests; here the object is kept as well, as it is
    after Finalize and Finalize256 (they call Write on it, sha512.cpp:213-214,
    230-231). *)
From Verif Require Import Base Sha512Model ReuseSpec.

Definition hasher_step (c : csha) (o : hop) : res (csha * list (list N)) :=
  match o with
  | HWrite d => let* c' := sha_Write c d in Ok (c', [])
  | HFinalize => let* b := sha_Finalize c in let* c' := sha_finish c in Ok (c', [b])
  | HFinalize256 => let* b := sha_Finalize256 c in let* c' := sha_finish c in Ok (c', [b])
  | HReset => Ok (sha_Reset c, [])
  end.
Fixpoint hasher_run (c : csha) (os : list hop) : res (csha * list (list N)) :=
  match os with
  | [] => Ok (c, [])
  | o :: r => let* x := hasher_step c o in let* y := hasher_run x.1 r in Ok (y.1, x.2 ++ y.2)
  end.
