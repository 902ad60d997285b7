(** * SwapSpec: exchanging two subtrees of a pollard (specification) *)
From Verif Require Import Base StateModel CodecModel ForestModel PollardModel PosSpec.

(** Where the node [(r, i)] comes from when the subtrees under the nodes [a] and [b] of
    row [j] are exchanged: a node below one of the two comes from the same place below
    the other, every other node stays. *)
Definition exchanged (j a b r i : N) : N :=
  if j <? r then i else
  let P := 2 ^ (j - r) in
  if i / P =? a then b * P + i mod P else
  if i / P =? b then a * P + i mod P else i.

(** What is read at the node [(r, i)] once the siblings of [a] and [b] that were not
    stored have been replaced by nodes with the hash zero. *)
Definition read_filled (p : pollard) (R j a b r i : N) : res (option hash) :=
  match P_Read p (enc R r i) with
  | Ok None => if (r =? j) && ((i =? sib a) || (i =? sib b)) then Ok (Some zero_hash) else Ok None
  | x => x
  end.

Definition stored_at (p : pollard) (pos : N) : Prop := exists h, P_Read p pos = Ok (Some h).
