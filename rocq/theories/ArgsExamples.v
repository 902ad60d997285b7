(** * ArgsExamples: concrete command lines *)
From Verif Require Import Base ArgsModel ArgsSpec ArgsFacts PosFacts.
From Coq Require Import ZArith Ascii String.

(** The character codes of a text. *)
Definition txt (s : string) : list N := N_of_ascii <$> list_ascii_of_string s.

Definition argv90 : list (list N) := [txt "bench"; txt "-filter=Add"; txt "-min_time=5"; txt "-filter=a=b"; txt "-h"].
Definition run90 := let m := ParseParameters argv90 in
  (GetArg m (txt "-filter") (txt ".*"), GetArg m (txt "-asymptote") [], IsArgSet m (txt "-h"), IsArgSet m (txt "-?")).
Lemma run90_ok : run90 = (txt "a=b", [], true, false).
Proof. vm_compute. reflexivity. Qed.
Lemma set90 : last_set (drop 1 argv90) (txt "-filter") (txt "a=b").
Proof. apply parse_lem. vm_compute. reflexivity. Qed.
Lemma unset90 v : ~ last_set (drop 1 argv90) (txt "-asymptote") v.
Proof. intros E%parse_lem. vm_compute in E. discriminate E. Qed.

Definition arg91 (v : string) : list (list N) := [txt "bench"; (txt "-min_time=" ++ txt v)%list].
Definition run91 (v : string) : res Z := GetIntArg (ParseParameters (arg91 v)) (txt "-min_time") 10%Z.
Lemma run91_bad : run91 "abc" = Throw.
Proof. vm_compute. reflexivity. Qed.
Lemma run91_ok : (run91 "7x", run91 " -20", run91 "2147483648", run91 "") = (Ok 7%Z, Ok (-20)%Z, Ok 10%Z, Throw).
Proof. vm_compute. reflexivity. Qed.
Lemma set91 : last_set (drop 1 (arg91 "abc")) (txt "-min_time") (txt "abc").
Proof. apply parse_lem. vm_compute. reflexivity. Qed.
Lemma set91' : last_set (drop 1 (arg91 "2147483648")) (txt "-min_time") (txt "2147483648").
Proof. apply parse_lem. vm_compute. reflexivity. Qed.
Lemma number91 : starts_with (txt "2147483648") 2147483648.
Proof.
  exists [], [], (txt "2147483648"), []. split; [done|]. split; [constructor|]. split; [done|]. split.
  - unfold digit. change (txt "2147483648") with [50; 49; 52; 55; 52; 56; 51; 54; 52; 56]. repeat constructor; done.
  - split; [done|]. left. split; [by left|]. vm_compute. reflexivity.
Qed.
Lemma no_number91 z : ~ starts_with (txt "abc") z.
Proof.
  intros Hz. apply stoi_number in Hz as [E1 E2]. change (stoi (txt "abc")) with SInvalid in *. assert (Hn : ~ int_range z) by (intros Hi; by apply E1 in Hi). by apply E2 in Hn.
Qed.
Lemma refuted91 : exists argv k def v, last_set (drop 1 argv) k v /\ (forall z, ~ starts_with v z) /\ GetIntArg (ParseParameters argv) k def = Throw.
Proof. exists (arg91 "abc"), (txt "-min_time"), 10%Z, (txt "abc"). split; [exact set91|]. split; [exact no_number91|exact run91_bad]. Qed.
Lemma refuted91' : exists argv k def v z, last_set (drop 1 argv) k v /\ starts_with v z /\ z <> def /\ GetIntArg (ParseParameters argv) k def = Ok def.
Proof.
  exists (arg91 "2147483648"), (txt "-min_time"), 10%Z, (txt "2147483648"), 2147483648%Z. split; [exact set91'|]. split; [exact number91|]. split; [done|].
  apply (int_lem _ _ _ _ set91') with (z := 2147483648%Z); [exact number91|]. intros [_ Hx]. by apply Hx.
Qed.

(** bench_utreexo.cpp:14-21 SetupBenchArgs, without the help texts. *)
Definition SetupBenchArgs : res (gmap (list N) (list N * list N)) :=
  let* m := AddArg ∅ (txt "-asymptote=<n1,n2,n3,...>") [] in
  let* m := AddArg m (txt "-filter=<regex>") [] in
  let* m := AddArg m (txt "-min_time=<milliseconds>") [] in
  AddArg m (txt "-?") [].
Definition run92 := let* m := SetupBenchArgs in Ok (m !! txt "-filter", m !! txt "-?", AddArg m (txt "-filter=x") []).
Lemma run92_ok : run92 = Ok (Some (txt "=<regex>", []), Some ([], []), Abort).
Proof. vm_compute. reflexivity. Qed.
