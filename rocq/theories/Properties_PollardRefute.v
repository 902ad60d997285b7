(** * False properties of Pollard: C29, C30, C33 *)
From Verif Require Import Base StateModel CodecModel ForestModel PollardModel PollardRefute.

(** C29 is false: a rejected proof leaves leaves marked as remembered. *)
Theorem C29_failed_verify_refuted H : exists p bp ths p', P_Modify H (Pollard_new 0) adds29 [] = Ok (true, p) /\
  P_Verify H p bp ths = Ok (false, p') /\ P_NumCachedLeaves p = 1 /\ P_NumCachedLeaves p' = 2.
Proof. exact (C29_refuted_lem H). Qed.
Print Assumptions C29_failed_verify_refuted.

(** C30 is false: after a verified deletion the pollard cannot prove a leaf that
    it was told to remember. *)
Theorem C30_pollard_prove_refuted : exists H f p bp v p2 f2 pf,
  F_Modify H (RamForest_new 0) adds30 [] = Ok (true, f) /\ P_Modify H (Pollard_new 0) adds30 [] = Ok (true, p) /\
  F_Prove f [10; 11; 13] = Ok (Some bp) /\ P_Verify H p bp [10; 11; 13] = Ok (true, v) /\
  P_Modify H v [] [0; 1; 3] = Ok (true, p2) /\ F_Modify H f [] [0; 1; 3] = Ok (true, f2) /\
  F_Prove f2 [12] = Ok (Some pf) /\ P_Prove p2 [12] = Ok None.
Proof. exact C30_refuted_lem. Qed.
Print Assumptions C30_pollard_prove_refuted.

(** C33 is false: deleting a leaf that the pollard remembers and can prove
    dereferences a null pointer. *)
Theorem C33_modify_cached_refuted H : exists p pf, P_Modify H (Pollard_new 0) adds33 [] = Ok (true, p) /\
  P_Prove p [10] = Ok (Some pf) /\ m_targets pf = [0] /\ P_Modify H p [] [0] = UB.
Proof. exact (C33_refuted_lem H). Qed.
Print Assumptions C33_modify_cached_refuted.
