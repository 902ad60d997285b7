(** * Properties of the printing functions: C74 *)
From stdpp Require Import strings pretty.
From Verif Require Import Base StateModel CodecModel ForestModel PollardModel CodecSpec PrintModel PrintSpec PlaceSpec PrintFacts.

(** C74: HexStr is defined for all bytes and reading its text as hexadecimal gives the
    bytes. *)
Theorem C74_hex bs : Forall (λ b, b < 256) bs -> exists s, HexStr bs = Ok s /\ unhex s = Some bs.
Proof. exact (HexStr_reads bs). Qed.
Print Assumptions C74_hex.

Example C74_hex_example : HexStr [0; 171; 15; 240] = Ok "00ab0ff0"%string /\ Forall (λ b, b < 256) [0; 171; 15; 240].
Proof. exact hex_example. Qed.

(** Two batch proofs are printed alike exactly if they have the same targets, in the
    same order, and the same hashes. *)
Theorem C74_proof p q : fits 32 (m_proof p) -> fits 32 (m_proof q) ->
  exists s t, bp_Print p = Ok s /\ bp_Print q = Ok t /\ (s = t <-> m_targets p = m_targets q /\ m_proof p = m_proof q).
Proof. exact (bp_Print_lem p q). Qed.
Print Assumptions C74_proof.

Example C74_proof_example : fits 32 [17] /\
  bp_Print (BatchProof [4; 19] [17]) = Ok ("targets: 4 19 " +:+ newline +:+ "proof: 0000000000000000000000000000000000000000000000000000000000000011, " +:+ newline)%string.
Proof. exact proof_example. Qed.

(** Two undo batches are printed alike exactly if they are equal. *)
Theorem C74_undo p q : fits 32 (m_deleted_hashes p) -> fits 32 (m_deleted_hashes q) ->
  exists s t, ub_Print p = Ok s /\ ub_Print q = Ok t /\ (s = t <-> p = q).
Proof. exact (ub_Print_lem p q). Qed.
Print Assumptions C74_undo.

Example C74_undo_example : fits 32 [17] /\
  ub_Print (UndoBatch 3 [4] [17]) = Ok ("prev num adds: 3" +:+ newline +:+ "deleted positions: 4 " +:+ newline +:+ "deleted hashes: 0000000000000000000000000000000000000000000000000000000000000011, " +:+ newline)%string.
Proof. exact undo_example. Qed.

(** Position maps printed alike are equal, in whatever order they are iterated over. *)
Theorem C74_position_map (m1 m2 : gmap N N) es1 es2 : es1 ≡ₚ map_to_list m1 -> es2 ≡ₚ map_to_list m2 -> fits 32 es1.*1 -> fits 32 es2.*1 ->
  exists s t, PrintPositionMap es1 = Ok s /\ PrintPositionMap es2 = Ok t /\ (s = t -> m1 = m2).
Proof. exact (PrintPositionMap_lem m1 m2 es1 es2). Qed.
Print Assumptions C74_position_map.

Example C74_position_map_example : [(17, 4); (255, 0)] ≡ₚ map_to_list ({[17 := 4; 255 := 0]} : gmap N N) /\ fits 32 ([(17, 4); (255, 0)] : list (N * N)).*1.
Proof. exact map_example. Qed.

(** The roots of two forests, or of a forest and a pollard, are printed alike exactly if
    they have the same positions and the same hashes. *)
Theorem C74_roots f g : fits 32 (F_Roots f) -> fits 32 (F_Roots g) ->
  exists s t, F_PrintRoots f = Ok s /\ F_PrintRoots g = Ok t /\ (s = t <-> F_root_positions f = F_root_positions g /\ F_Roots f = F_Roots g).
Proof. exact (F_PrintRoots_lem f g). Qed.
Print Assumptions C74_roots.
Theorem C74_pollard_roots f p hs : fits 32 (F_Roots f) -> P_Roots p = Ok hs -> fits 32 hs ->
  exists s t, F_PrintRoots f = Ok s /\ P_PrintRoots p = Ok t /\ (s = t <-> F_root_positions f = P_root_positions p /\ F_Roots f = hs).
Proof. exact (P_PrintRoots_lem f p hs). Qed.
Print Assumptions C74_pollard_roots.

Example C74_roots_example : exists p, Pollard_restore [17; 255] 3 = Ok p /\ P_Roots p = Ok [17; 255] /\ fits 32 [17; 255] /\
  P_PrintRoots p = Ok ("root: 4:0000000000000000000000000000000000000000000000000000000000000011" +:+ newline +:+
                       "root: 2:00000000000000000000000000000000000000000000000000000000000000ff" +:+ newline)%string.
Proof. exact roots_example. Qed.

(** The debug output of positions and swaps (print_vector, print_swaps) determines them. *)
Theorem C74_vector v1 v2 : print_vector v1 = print_vector v2 <-> v1 = v2.
Proof. exact (print_vector_lem v1 v2). Qed.
Print Assumptions C74_vector.
Theorem C74_swaps v1 v2 : print_swaps v1 = print_swaps v2 <-> v1 = v2.
Proof. exact (print_swaps_lem v1 v2). Qed.
Print Assumptions C74_swaps.

Example C74_swaps_example : print_swaps [Swap 4 6 true false 0; Swap 0 8 false true 2] = ("_c (4, 6) 0 r_ (0, 8) 2 " +:+ newline)%string.
Proof. exact swaps_example. Qed.
