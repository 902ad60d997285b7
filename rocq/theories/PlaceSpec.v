(** * PlaceSpec: the positions of the roots (specification) *)
From Verif Require Import Base StateModel CodecModel ForestModel PollardModel PosSpec.

(** [ps] are the positions of the roots of [n] leaves in a forest of height [R]. *)
Definition placed (n R : N) (ps : list N) : Prop := exists ts, is_forest n ts /\ ps = (λ t : N * N, enc R t.1 t.2) <$> ts.

(** The positions that the roots of a forest or pollard carry. *)
Definition F_root_positions (f : forest) : list N := rn_pos <$> f_roots f.
Definition P_root_positions (p : pollard) : list N := pr_pos <$> p_roots p.

(** What additions that lead from [n] to [n'] leaves do to the positions: with the same
    height ([R = R']), a tree that stays keeps the position that its root carries; all
    other roots carry their positions. *)
Definition carried (n n' R R' : N) (ps ps' : list N) : Prop :=
  (exists T', is_forest n' T' /\ length ps' = length T') /\
  forall T T' k r i, is_forest n T -> is_forest n' T' -> T' !! k = Some (r, i) ->
    (R = R' -> T !! k = Some (r, i) -> ps' !! k = ps !! k) /\
    (R <> R' \/ T !! k <> Some (r, i) -> ps' !! k = Some (enc R' r i)).
