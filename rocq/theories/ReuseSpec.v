(** * ReuseSpec: what an object of class CSHA512 computes over its life

    A hasher is asked to take in bytes, to give a digest (of 64 or of 32 bytes),
    and to start again.  It is described by an initial value and the bytes taken
    in since; giving a digest takes in the padding too. *)
From Verif Require Import Base CodecSpec Sha512Spec.

Inductive hop := HWrite (d : list N) | HFinalize | HFinalize256 | HReset.

(** Initial value and bytes. *)
Notation hstate := (words8 * list N)%type (only parsing).

Definition ideal_step (s : hstate) (o : hop) : hstate * list (list N) :=
  match o with
  | HWrite d => ((s.1, s.2 ++ d), [])
  | HFinalize => ((s.1, padded s.2), [words_bytes (digest s.1 s.2)])
  | HFinalize256 => ((s.1, padded s.2), [take 32 (words_bytes (digest s.1 s.2))])
  | HReset => ((IV_512, []), [])
  end.
Fixpoint ideal (s : hstate) (os : list hop) : list (list N) :=
  match os with
  | [] => []
  | o :: r => (ideal_step s o).2 ++ ideal (ideal_step s o).1 r
  end.
Fixpoint ideal_end (s : hstate) (os : list hop) : hstate :=
  match os with [] => s | o :: r => ideal_end (ideal_step s o).1 r end.

(** What is written are bytes, and never 2^61 bytes without a reset. *)
Definition hop_bytes (o : hop) : Prop := match o with HWrite d => byte_string d | _ => True end.
Fixpoint short (s : hstate) (os : list hop) : Prop :=
  size s.2 < 2 ^ 61 /\ match os with [] => True | o :: r => short (ideal_step s o).1 r end.
