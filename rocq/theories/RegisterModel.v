(** * RegisterModel: the registration of fuzz targets and benchmarks (model)

    src/fuzz/fuzz.cpp, the macro FUZZ of src/fuzz/fuzz.h, and BenchRunner of
    src/bench/bench.cpp.  C++ leaves the order open in which the files of a program are
    initialised.  Functions are numbers, names are lists of character codes. *)
From Verif Require Import Base.

Notation name := (list N) (only parsing).

(** A file of the fuzz program: fuzz.cpp, which has the map g_targets that is used (the
    variable is static in fuzz.h, so that every file has its own; RegisterFuzzTarget is in
    fuzz.cpp), or a file with one target. *)
Inductive fuzz_file := FuzzCpp | TargetFile (n : name) (fn : N).

(** fuzz.cpp:6-10 RegisterFuzzTarget.  [None] is a map that is not constructed yet: its use
    is undefined. *)
Definition RegisterFuzzTarget (s : option (gmap name N)) (n : name) (fn : N) : res (option (gmap name N)) :=
  match s with
  | None => UB
  | Some m => match m !! n with Some _ => Abort | None => Ok (Some (<[n := fn]> m)) end
  end.

(** fuzz.h:11 the initialisation of g_targets; 14-21 that of the object made by FUZZ. *)
Definition init_file (s : option (gmap name N)) (u : fuzz_file) : res (option (gmap name N)) :=
  match u with
  | FuzzCpp => Ok (Some ∅)
  | TargetFile n fn => RegisterFuzzTarget s n fn
  end.
Fixpoint init_files (s : option (gmap name N)) (us : list fuzz_file) : res (option (gmap name N)) :=
  match us with
  | [] => Ok s
  | u :: us' => let* s' := init_file s u in init_files s' us'
  end.

(** fuzz.cpp:21-31 LLVMFuzzerInitialize: the function selected.  [env] is the value of
    getenv("FUZZ"); a string_view of a null pointer is undefined. *)
Definition LLVMFuzzerInitialize (m : gmap name N) (env : option name) : res N :=
  match env with
  | None => UB
  | Some n => match m !! n with Some fn => Ok fn | None => Abort end
  end.

(** The start of the fuzz program, whose files are initialised in the order [us]. *)
Definition fuzz_start (us : list fuzz_file) (env : option name) : res N :=
  let* s := init_files None us in
  match s with
  | None => UB
  | Some m => LLVMFuzzerInitialize m env
  end.

(** bench.cpp:15-24 benchmarks() and the constructor of BenchRunner: the map is a static
    variable of a function, constructed when first used.  map::insert keeps an old entry. *)
Definition BenchRunner (m : gmap name N) (b : name * N) : gmap name N :=
  match m !! b.1 with Some _ => m | None => <[b.1 := b.2]> m end.
Definition init_benchmarks (bs : list (name * N)) : gmap name N := fold_left BenchRunner bs ∅.
