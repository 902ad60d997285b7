(** * Property C97: the help message (theorems) *)
From Verif Require Import Base HelpModel HelpSpec ArgsExamples HelpFacts.
From Coq Require Import String.

(** The help message shows every argument added once, with its name as it was passed to
    AddArg and its text, in the order of the map. *)
Theorem C97_help_message adds m entries : AddArgs ∅ adds = Ok m -> entries ≡ₚ map_to_list m ->
  exists adds', adds' ≡ₚ adds /\ Forall2 key_of entries.*1 adds'.*1 /\
    GetHelpMessage entries = ([79; 112; 116; 105; 111; 110; 115; 10; 10] ++ mjoin (shown <$> adds'))%list.
Proof. exact (help_lem adds m entries). Qed.
Print Assumptions C97_help_message.

Example C97_example : exists m, AddArgs ∅ adds97 = Ok m /\ entries97 ≡ₚ map_to_list m.
Proof. exact ex97. Qed.

(** An argument with the name of an earlier one aborts, whatever their parameters are. *)
Theorem C97_twice adds name help m : AddArgs ∅ adds = Ok m -> (exists k b, b ∈ adds.*1 /\ key_of k b /\ key_of k name) ->
  AddArgs ∅ (adds ++ [(name, help)])%list = Abort.
Proof. exact (abort_lem adds name help m). Qed.
Print Assumptions C97_twice.

Example C97_twice_example : (exists m, AddArgs ∅ adds97 = Ok m /\ entries97 ≡ₚ map_to_list m) /\ exists k b, b ∈ adds97.*1 /\ key_of k b /\ key_of k (txt "-filter").
Proof. split; [exact ex97|exact key97]. Qed.
