(** * VerifySpec: which proofs a pollard should accept (specification)

    The needed nodes are visited from the highest row down and from right to left
    in each row, which is the reverse of the order of their positions. *)
From Verif Require Import Base ForestModel PollardModel PosSpec ProofSpec.

(** The hashes [prf] are used up, and each needed node gets the hash it has in the
    forest [f], either from the proof or from what the pollard [p] stores. *)
Definition fills (f : forest) (p : pollard) (ts : list N) (prf : list hash) : Prop :=
  exists R ps st hs, is_height (p_n p) R /\ lists_nodes R (needed (p_n p) ts) ps /\
    Forall2 (fun q x => P_Read p q = Ok x) ps st /\ Forall2 (fun q h => F_Read f q = Ok h) ps hs /\
    takes (rev st) (rev prf) (rev hs) [].

(** The hashes [prf] are used up exactly before a needed node at which the
    pollard stores the zero hash. *)
Definition overruns (p : pollard) (ts : list N) (prf : list hash) : Prop :=
  exists R ps st, is_height (p_n p) R /\ lists_nodes R (needed (p_n p) ts) ps /\
    Forall2 (fun q x => P_Read p q = Ok x) ps st /\ halts (rev st) (rev prf) (Some zero_hash).

(** The pollard [p'] stores every hash that [p] stores. *)
Definition stores_more (p p' : pollard) : Prop :=
  p_n p' = p_n p /\ forall R r i h, is_height (p_n p) R -> node (p_n p) r i ->
    P_Read p (enc R r i) = Ok (Some h) -> P_Read p' (enc R r i) = Ok (Some h).

(** The hashes [prf] are those the pollard stores at the nodes needed for the
    targets [ts], in the order of their positions; it stores all of them. *)
Definition stored_proof (p : pollard) (ts : list N) (prf : list hash) : Prop :=
  exists R ps, is_height (p_n p) R /\ lists_nodes R (needed (p_n p) ts) ps /\ Forall2 (fun q h => P_Read p q = Ok (Some h)) ps prf.
