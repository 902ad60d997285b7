(** * Base: outcome monad, 64 bit arithmetic, vectors

    Shared vocabulary of the model.  Nothing in this file is specific to one
    C++ function; the definitions fix the meaning of the C++ built-ins the code
    relies on. *)
From stdpp Require Export prelude list numbers gmap.
From Coq Require Export NArith ZArith Lia.
Global Open Scope N_scope.

(** ** Outcomes

    [Ok a]   the code returned [a];
    [UB]     the code executed something with undefined behaviour
             (out-of-range [operator[]], shift count >= width, null or
             past-the-end dereference, signed overflow, uninitialised read);
    [Abort]  an [assert] failed (configure.ac never defines NDEBUG);
    [Throw]  an exception left the function ([vector::at], [optional::value]);
    [NoFuel] the fuel of the *model* ran out: never a behaviour of the code,
             theorems exclude it by stating [= Ok _]. *)
Inductive res (A : Type) : Type :=
| Ok (a : A)
| UB
| Abort
| Throw
| NoFuel.
Arguments Ok {A} a.
Arguments UB {A}.
Arguments Abort {A}.
Arguments Throw {A}.
Arguments NoFuel {A}.

Definition bind {A B} (m : res A) (f : A -> res B) : res B :=
  match m with
  | Ok a => f a
  | UB => UB
  | Abort => Abort
  | Throw => Throw
  | NoFuel => NoFuel
  end.

Notation "'let*' x ':=' m 'in' k" := (bind m (fun x => k))
  (at level 200, x binder, m at level 100, k at level 200, right associativity).

(** [assert(b)]: cassert without NDEBUG. *)
Definition assert_ (b : bool) : res unit := if b then Ok tt else Abort.

(** Monadic left fold: a C++ range-for whose body can fail. *)
Fixpoint foldM {A S} (f : S -> A -> res S) (s : S) (l : list A) : res S :=
  match l with
  | [] => Ok s
  | x :: l' => let* s' := f s x in foldM f s' l'
  end.

(** Monadic map, left to right. *)
Fixpoint mapM_ {A B} (f : A -> res B) (l : list A) : res (list B) :=
  match l with
  | [] => Ok []
  | x :: l' => let* y := f x in let* ys := mapM_ f l' in Ok (y :: ys)
  end.

(** ** uint64_t *)
Definition two64 : N := 18446744073709551616.
Definition w64 (x : N) : N := x mod two64.
Definition add64 (a b : N) : N := w64 (a + b).
Definition sub64 (a b : N) : N := w64 (a + two64 - w64 b).
Definition not64 (a : N) : N := two64 - 1 - w64 a.

(** [x << k] and [x >> k] on uint64_t: a count of 64 or more is undefined. *)
Definition shl64 (x k : N) : res N :=
  if k <? 64 then Ok (w64 (N.shiftl x k)) else UB.
Definition shr64 (x k : N) : res N :=
  if k <? 64 then Ok (N.shiftr x k) else UB.

(** A shift count computed in [int] as [a - b] with [a], [b] small unsigned:
    negative counts are undefined. *)
Definition int_sub (a b : N) : res N := if b <=? a then Ok (a - b) else UB.

(** ** std::vector *)
Definition size {A} (l : list A) : N := N.of_nat (length l).

(** [v[i]] : undefined out of range. *)
Definition vec_get {A} (l : list A) (i : N) : res A :=
  match l !! N.to_nat i with Some x => Ok x | None => UB end.

(** [v.at(i)] : throws out of range. *)
Definition vec_at {A} (l : list A) (i : N) : res A :=
  match l !! N.to_nat i with Some x => Ok x | None => Throw end.

(** [v[i] = x] : undefined out of range. *)
Definition vec_set {A} (l : list A) (i : N) (x : A) : res (list A) :=
  if i <? size l then Ok (<[N.to_nat i := x]> l) else UB.

(** [v.back()] : undefined on the empty vector. *)
Definition vec_back {A} (l : list A) : res A :=
  match last l with Some x => Ok x | None => UB end.

(** [v.pop_back()] : undefined on the empty vector. *)
Definition vec_pop {A} (l : list A) : res (list A) :=
  match l with [] => UB | _ => Ok (removelast l) end.

(** [v.resize(k)] : truncates or appends value-initialised elements. *)
Definition vec_resize {A} (l : list A) (k : N) (d : A) : list A :=
  take (N.to_nat k) l ++ replicate (N.to_nat k - length l) d.

(** [a, a+1, ..., a+len-1] : the index sequence of a counting loop. *)
Definition nseq (a len : N) : list N := (λ k, a + N.of_nat k) <$> seq 0 (N.to_nat len).

(** ** std::sort on a vector of uint64_t (the sorted result is unique, so any
    correct sorting algorithm models it). *)
Fixpoint insert_sorted (x : N) (l : list N) : list N :=
  match l with
  | [] => [x]
  | y :: l' => if x <=? y then x :: y :: l' else y :: insert_sorted x l'
  end.
Definition sortN (l : list N) : list N := foldr insert_sorted [] l.

(** ** Hashes

    [std::array<uint8_t,32>] (include/accumulator.h:17) is represented by the
    number whose 32 big-endian bytes are the array.  Codecs and SHA convert to
    bytes with [be_bytes 32]. *)
Notation hash := N (only parsing).
Definition zero_hash : hash := 0.
Definition hash_bound : N := 2 ^ 256.

(** Big-endian bytes: [be_bytes k x] is the [k]-byte encoding of [x mod 256^k]. *)
Fixpoint be_bytes (k : nat) (x : N) : list N :=
  match k with
  | O => []
  | S k' => be_bytes k' (x / 256) ++ [x mod 256]
  end.
Definition be_value (bs : list N) : N := fold_left (fun a b => a * 256 + b) bs 0.
