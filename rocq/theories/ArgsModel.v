(** * ArgsModel: the command line of the benchmark program (model)

    ArgsManager of src/bench/util/args.cpp and args.h.  Strings are lists of character
    codes (ASCII).  The regular expression filter, the list of numbers read with iostream
    (parseAsymptote) and the texts of the program are not modelled. *)
From Verif Require Import Base.
From Coq Require Import ZArith.

Notation str := (list N) (only parsing).
Definition eq_sign : N := 61.

(** std::string::find of one character; [None] is npos. *)
Fixpoint find_char (c : N) (s : str) : option nat :=
  match s with
  | [] => None
  | x :: s' => if x =? c then Some 0%nat else S <$> find_char c s'
  end.

(** args.cpp:13-20: one argument, cut at the first equality sign. *)
Definition parse_arg (a : str) : str * str :=
  match find_char eq_sign a with
  | Some i => (take i a, drop (S i) a)
  | None => (a, [])
  end.

(** args.cpp:8-25 ParseParameters; the first element of [argv] is the name of the program.
    [m_command_line_options[key] = value] replaces an earlier value. *)
Definition ParseParameters (argv : list str) : gmap str str :=
  fold_left (λ m a, let kv := parse_arg a in <[kv.1 := kv.2]> m) (drop 1 argv) ∅.

(** args.cpp:70-78 GetArg. *)
Definition GetArg (m : gmap str str) (arg def : str) : str := match m !! arg with Some v => v | None => def end.

(** args.cpp:90-98 IsArgSet. *)
Definition IsArgSet (m : gmap str str) (arg : str) : bool := match m !! arg with Some _ => true | None => false end.

(** std::stoi in base ten (strtol and the range of [int]), in the C locale: white space, a
    sign, digits; what follows is ignored. *)
Inductive stoi_result := SValue (z : Z) | SInvalid | SRange.
Definition is_space (c : N) : bool := (c =? 32) || ((9 <=? c) && (c <=? 13)).
Definition is_digit (c : N) : bool := (48 <=? c) && (c <=? 57).
Fixpoint skip_space (s : str) : str :=
  match s with
  | c :: s' => if is_space c then skip_space s' else s
  | [] => []
  end.
Definition read_sign (s : str) : bool * str :=
  match s with
  | c :: s' => if c =? 45 then (true, s') else if c =? 43 then (false, s') else (false, s)
  | [] => (false, [])
  end.
Fixpoint read_digits (acc : N) (s : str) : N :=
  match s with
  | c :: s' => if is_digit c then read_digits (10 * acc + (c - 48)) s' else acc
  | [] => acc
  end.
Definition stoi (s : str) : stoi_result :=
  let r := read_sign (skip_space s) in
  match r.2 with
  | c :: _ =>
      if is_digit c then
        let z := (if r.1 then - Z.of_N (read_digits 0 r.2) else Z.of_N (read_digits 0 r.2))%Z in
        if ((-2147483648 <=? z) && (z <=? 2147483647))%Z then SValue z else SRange
      else SInvalid
  | [] => SInvalid
  end.

(** args.cpp:80-88 GetIntArg: std::out_of_range is caught, whether it comes from map::at or
    from stoi; std::invalid_argument is not caught. *)
Definition GetIntArg (m : gmap str str) (arg : str) (def : Z) : res Z :=
  match m !! arg with
  | None => Ok def
  | Some v =>
      match stoi v with
      | SValue z => Ok z
      | SInvalid => Throw
      | SRange => Ok def
      end
  end.

(** args.cpp:56-68 AddArg: the name is cut before the first equality sign; a name that was
    added before fails the assertion. *)
Definition AddArg (m : gmap str (str * str)) (name help : str) : res (gmap str (str * str)) :=
  let i := match find_char eq_sign name with Some i => i | None => length name end in
  let arg_name := take i name in
  match m !! arg_name with
  | Some _ => Abort
  | None => Ok (<[arg_name := (drop i name, help)]> m)
  end.
