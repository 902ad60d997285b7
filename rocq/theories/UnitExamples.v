(** * UnitExamples: runs of the unit test simple_blockchain *)
From Verif Require Import Base StateModel CodecModel ForestModel PollardModel FuzzModel UnitModel.

(** Random numbers: three more than the least one, as long as possible. *)
Definition rnd85 (k a b : N) : N := if a + 3 <=? b then a + 3 else a.
Lemma rnd85_ok k a b : a <= b -> a <= rnd85 k a b <= b.
Proof. intros Hab. unfold rnd85. destruct (N.leb_spec (a + 3) b); lia. Qed.
Definition H85 (a b : hash) : hash := (a * 7 + b * 11 + 1) mod 2305843009213693951.
(** In the first block leaves 3 and 7 of the eight leaves are deleted and four are added. *)
Lemma ex_blockchain : simple_blockchain H85 rnd85 2 = Ok tt /\
  (let* m := F_ModifyUndo H85 (RamForest_new 0) (test_leaves 0 8) [] in let* s := select rnd85 7 m.2 1 0 7 [] in Ok s.2) = Ok [SetHash 3; SetHash 7].
Proof. split; vm_compute; reflexivity. Qed.
(** With a hash function whose values are all equal, the spent proof is accepted. *)
Lemma ex_blockchain_bad : simple_blockchain (λ _ _, 5) rnd85 1 = Throw.
Proof. vm_compute. reflexivity. Qed.
