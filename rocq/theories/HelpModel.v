(** * HelpModel: the help message of the benchmark program (model) *)
From Verif Require Import Base ArgsModel.

(** The character codes of the constant texts: "Options", newline, space. *)
Definition options_text : list N := [79; 112; 116; 105; 111; 110; 115].
Definition nl : N := 10.
Definition sp : N := 32.

(** Several calls of AddArg, as SetupBenchArgs makes them. *)
Fixpoint AddArgs (m : gmap (list N) (list N * list N)) (adds : list (list N * list N)) : res (gmap (list N) (list N * list N)) :=
  match adds with
  | [] => Ok m
  | (name, help) :: adds' => let* m' := AddArg m name help in AddArgs m' adds'
  end.

(** args.cpp:44-45: the indents. *)
Definition optIndent : nat := 2.
Definition msgIndent : nat := 7.

(** args.cpp:48-53 HelpMessageOpt. *)
Definition HelpMessageOpt (option message : list N) : list N :=
  (replicate optIndent sp ++ option ++ [nl] ++ replicate msgIndent sp ++ message ++ [nl; nl])%list.

(** args.cpp:32-40: the loop; [entries] are those of the map m_available_args in their order. *)
Fixpoint help_loop (usage : list N) (entries : list (list N * (list N * list N))) : list N :=
  match entries with
  | [] => usage
  | (first, (m_help_param, m_help_text)) :: entries' =>
      let name := match m_help_param with [] => first | _ => first ++ m_help_param end in
      help_loop (usage ++ HelpMessageOpt name m_help_text) entries'
  end.

(** args.cpp:28-42 GetHelpMessage. *)
Definition GetHelpMessage (entries : list (list N * (list N * list N))) : list N := help_loop (options_text ++ [nl; nl]) entries.
