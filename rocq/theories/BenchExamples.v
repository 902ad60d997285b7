(** * BenchExamples: runs of the benchmark (proofs) *)
From Verif Require Import Base StateModel CodecModel ForestModel PollardModel FuzzModel UnitModel BenchModel PosFacts PosmapFacts UnitExamples.

(** Draws of zero leave the order as it is; the draws 6 and 3 select the third and the
    second element. *)
Definition run86 (rnd : N -> N) : res (list N) := let* l := random_unique rnd [10; 11; 12; 13] 2 in Ok (take 2 l).
Lemma run86_ok : run86 (λ _, 0) = Ok [10; 11] /\ run86 (λ k, if k =? 0 then 6 else 3) = Ok [12; 11].
Proof. vm_compute. split; reflexivity. Qed.
Definition run87 (rnd : N -> N) : res (list bool) := let* r := VerifyElementsPollard H85 rnd 4 2 in Ok r.1.
Definition pick87 (k : N) : N := if k =? 0 then 5 else 0.
Lemma run87_ok : run87 (λ _, 0) = Ok [true; true] /\ run87 pick87 = Ok [false; false].
Proof. vm_compute. split; reflexivity. Qed.
Lemma run87_inv rnd bs : run87 rnd = Ok bs -> exists p, VerifyElementsPollard H85 rnd 4 2 = Ok (bs, p).
Proof. unfold run87. intros E. apply bind_ok in E as ([b p] & E1 & E). apply Ok_inv in E. cbn [fst] in E. subst bs. by exists p. Qed.
Definition run88 (rnd : N -> N) : res (list N * bool * bool * N) :=
  let* pr := ProveElementsForest H85 rnd 4 in
  let* v := VerifyElementsForest H85 rnd 4 in
  let* m := RemoveElementsForest H85 rnd 4 in
  Ok (m_targets (default BatchProofNull pr), v, m.1, f_n m.2).
Lemma run88_ok : run88 pick87 = Ok ([5; 1; 2; 3], true, true, 4).
Proof. vm_compute. reflexivity. Qed.
Definition H89 (a b : N) : N := H85 a b mod 256 ^ 32.
Lemma H89_fits a b : H89 a b < 256 ^ 32.
Proof. by apply N.mod_lt. Qed.
Definition run89 : res (N * bool * N * N * N) :=
  let* f := AddElements H89 5 true in
  let* p := AddElementsPollard H89 5 in
  let* q := RestorePollard H89 5 in
  let* file := RestoreFromDiskForest H89 5 3 in
  Ok (f_n f, p.1, p_n p.2, p_n q, size file).
Lemma run89_ok : run89 = Ok (5, true, 5, 5, 8 + 32 * (5 + 2 + 1)).
Proof. vm_compute. reflexivity. Qed.
