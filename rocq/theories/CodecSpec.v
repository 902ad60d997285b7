(** * CodecSpec: the wire formats (specification)

    Written from the format description only; refers to nothing of the model
    but the meaning of lists. *)
From Verif Require Import Base.

(** [x] as [k] bytes, most significant first. *)
Definition be (k : nat) (x : N) : list N :=
  (λ j, x / 256 ^ N.of_nat (k - 1 - j) mod 256) <$> seq 0 k.

(** Little-endian: least significant byte first. *)
Definition le (k : nat) (x : N) : list N :=
  (λ j, x / 256 ^ N.of_nat j mod 256) <$> seq 0 k.

Definition byte_string (bs : list N) : Prop := Forall (fun b => b < 256) bs.
Definition fits (k : N) (xs : list N) : Prop := Forall (fun x => x < 256 ^ k) xs.

(** A batch proof on the wire: number of targets, number of hashes, targets
    (32 bit each), hashes (32 bytes each). *)
Definition proof_format (targets hashes : list N) : list N :=
  be 4 (N.of_nat (length targets)) ++ be 4 (N.of_nat (length hashes)) ++
  (targets ≫= be 4) ++ (hashes ≫= be 32).

(** An undo batch on the wire: number of additions, number of deletions, deleted
    positions (32 bit each), deleted hashes. *)
Definition undo_format (adds : N) (positions hashes : list N) : list N :=
  be 4 adds ++ be 4 (N.of_nat (length positions)) ++
  (positions ≫= be 4) ++ (hashes ≫= be 32).
