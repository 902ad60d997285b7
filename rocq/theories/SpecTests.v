(** * SpecTests: the specifications on published examples (tests, not theorems) *)
From Verif Require Import Base CodecSpec Sha512Spec.

(** The examples "abc" of SHA-512/256 and SHA-512, and the empty message, from
    the NIST example files. *)
Check ltac:(vm_compute; reflexivity) :
  value (SHA512_256 [0x61; 0x62; 0x63]) =
  0x53048e2681941ef99b2e29b76b4c7dabe4c2d0c634fc6d46e0e2f13107e7af23.
Check ltac:(vm_compute; reflexivity) :
  value (SHA512 [0x61; 0x62; 0x63]) =
  0xddaf35a193617abacc417349ae20413112e6fa4e89a97ea20a9eeee64b55d39a2192992a274fc1a836ba3c23a3feebbd454d4423643ce80e2a9ac94fa54ca49f.
Check ltac:(vm_compute; reflexivity) :
  value (SHA512_256 []) =
  0xc672b8d1ef56ed28ab87c3622c5114069bdd3ad7b8f9737498d0c01ecef0967a.
