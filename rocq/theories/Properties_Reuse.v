(** * Property C78: a hasher used again (theorems) *)
From Verif Require Import Base CodecSpec Sha512Model Sha512Spec ReuseSpec ReuseModel ReuseFacts.

(** C78: over its whole life, with writes, digests and resets in any order, a
    CSHA512 gives the digests of the description in ReuseSpec.  Note that giving
    a digest does not start the hasher again, and that a reset always goes back
    to the initial value of SHA-512. *)
Theorem C78_life (buf : list N) os : length buf = 128%nat -> Forall hop_bytes os ->
  (short (IV_512, []) os -> exists c, hasher_run (CSHA512_512 buf) os = Ok (c, ideal (IV_512, []) os)) /\
  (short (IV_512_256, []) os -> exists c, hasher_run (CSHA512_256 buf) os = Ok (c, ideal (IV_512_256, []) os)).
Proof. exact (C78_life_lem buf os). Qed.
Print Assumptions C78_life.

(** After Reset, whatever came before and whichever constructor was used,
    Finalize gives SHA-512 of what was written since and Finalize256 its first
    half. *)
Theorem C78_reset (buf : list N) (wide : bool) os ds :
  let iv := if wide then IV_512 else IV_512_256 in
  let c0 := if wide then CSHA512_512 buf else CSHA512_256 buf in
  length buf = 128%nat -> Forall hop_bytes os -> short (iv, []) os ->
  Forall byte_string ds -> size (concat ds) < 2 ^ 61 ->
  exists c outs, hasher_run c0 os = Ok (c, outs) /\
    (let* c' := foldM sha_Write (sha_Reset c) ds in sha_Finalize c') = Ok (SHA512 (concat ds)) /\
    (let* c' := foldM sha_Write (sha_Reset c) ds in sha_Finalize256 c') = Ok (take 32 (SHA512 (concat ds))).
Proof. exact (C78_reset_lem buf wide os ds). Qed.
Print Assumptions C78_reset.

(** Refuted: a hasher made for SHA-512/256 does not compute SHA-512/256 after a
    reset, nor after a digest. *)
Theorem C78_reset_refuted : exists buf, length buf = 128%nat /\
  (exists c b, hasher_run (CSHA512_256 buf) [HReset; HFinalize256] = Ok (c, [b]) /\ b <> SHA512_256 []) /\
  (exists c b, hasher_run (CSHA512_256 buf) [HFinalize256; HFinalize256] = Ok (c, [SHA512_256 []; b]) /\ b <> SHA512_256 []).
Proof. exact C78_refuted_lem. Qed.
Print Assumptions C78_reset_refuted.

Example C78_meets : let os := [HWrite (replicate 120 1); HFinalize256; HWrite [2]; HFinalize; HReset; HWrite (replicate 200 3); HFinalize256] in
  length buf0 = 128%nat /\ Forall hop_bytes os /\ short (IV_512, []) os /\ short (IV_512_256, []) os.
Proof. exact C78_meets_lem. Qed.
