(** * ProofSpec: which nodes a batch proof consists of (specification) *)
From Verif Require Import Base PosSpec.

(** The nodes a verifier computes: the targets (leaf positions) and all their
    ancestors inside the forest.  The ancestor of leaf [t] on row [r] is
    [t / 2^r]. *)
Definition computed (n : N) (ts : list N) (r i : N) : Prop :=
  node n r i /\ exists t, t ∈ ts /\ t / 2 ^ r = i.

(** The nodes it needs to be given: the siblings of computed nodes that are no
    roots, unless computed themselves. *)
Definition needed (n : N) (ts : list N) (r i : N) : Prop :=
  computed n ts r (sib i) /\ ~ is_root n r (sib i) /\ ~ computed n ts r i.

(** [ps] lists exactly the positions of the nodes satisfying [P], each once, row
    by row from the bottom and left to right. *)
Definition lists_nodes (R : N) (P : N -> N -> Prop) (ps : list N) : Prop :=
  StronglySorted N.lt ps /\ forall p, p ∈ ps <-> exists r i, slot R r i /\ p = enc R r i /\ P r i.

(** How a verifier that already stores some nodes uses up the hashes of a proof.
    [st] lists what it stores at the needed nodes, in the order in which it visits
    them, and [hs] the hashes in the order in which they are used.  A node it does
    not store takes the next hash.  A stored node takes the next hash only if that
    is the hash it stores already; when there is no next hash, the zero hash is
    compared.  [out] lists the hashes the nodes have afterwards, and the last
    argument is what is left. *)
Inductive takes : list (option N) -> list N -> list N -> list N -> Prop :=
| takes_end hs : takes [] hs [] hs
| takes_new h st hs out hs' : takes st hs out hs' -> takes (None :: st) (h :: hs) (h :: out) hs'
| takes_same h st hs out hs' : takes st hs out hs' -> takes (Some h :: st) (h :: hs) (h :: out) hs'
| takes_skip h st hs out hs' : hd 0 hs <> h -> takes st hs out hs' -> takes (Some h :: st) hs (h :: out) hs'.

(** The hashes run out exactly before a node at which [x] is stored. *)
Definition halts (st : list (option N)) (hs : list N) (x : option N) : Prop :=
  exists vs rs out, st = vs ++ x :: rs /\ takes vs hs out [].
