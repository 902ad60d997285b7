(** * Sha512Spec: SHA-512 and SHA-512/256 after FIPS 180-4

    Written from the standard, independently of Sha512Model.  Section numbers
    are those of FIPS 180-4.  A word is a number below 2^64, a byte a number
    below 256; messages are byte strings. *)
From Verif Require Import Base CodecSpec.

Definition word (x : N) : Prop := x < 2 ^ 64.

(** 2.2.2, 3.2: operations on words. *)
Definition addw (x y : N) : N := (x + y) mod 2 ^ 64.
Definition SHR (n x : N) : N := x / 2 ^ n.
Definition ROTR (n x : N) : N := x / 2 ^ n + (x mod 2 ^ n) * 2 ^ (64 - n).
Definition NOT (x : N) : N := N.lnot x 64.

(** 4.1.3: the six functions. *)
Definition s_Ch (x y z : N) : N := N.lxor (N.land x y) (N.land (NOT x) z).
Definition s_Maj (x y z : N) : N := N.lxor (N.lxor (N.land x y) (N.land x z)) (N.land y z).
Definition S0 (x : N) : N := N.lxor (N.lxor (ROTR 28 x) (ROTR 34 x)) (ROTR 39 x).
Definition S1 (x : N) : N := N.lxor (N.lxor (ROTR 14 x) (ROTR 18 x)) (ROTR 41 x).
Definition g0 (x : N) : N := N.lxor (N.lxor (ROTR 1 x) (ROTR 8 x)) (SHR 7 x).
Definition g1 (x : N) : N := N.lxor (N.lxor (ROTR 19 x) (ROTR 61 x)) (SHR 6 x).

(** Prime numbers by trial division. *)
Definition is_prime (p : N) : bool :=
  (2 <=? p) && forallb (fun d => negb (p mod d =? 0)) (nseq 2 (p - 2)).
Definition primes_upto (n : N) : list N := filter (λ p, is_prime p = true) (nseq 0 (n + 1)).
(** The first eighty prime numbers: 409 is the eightieth. *)
Definition primes : list N := primes_upto 409.

(** 4.2.3: K_t is the first sixty-four bits of the fractional part of the cube
    root of the t-th prime: with c the integer part of 2^64 * cbrt p, i.e.
    c^3 <= p * 2^192 < (c+1)^3, the low 64 bits of c. *)
Definition cube_root (x c : N) : Prop := c ^ 3 <= x < (c + 1) ^ 3.
Definition is_K (t : nat) (k : N) : Prop :=
  exists p c, primes !! t = Some p /\ cube_root (p * 2 ^ 192) c /\ k = c mod 2 ^ 64.

(** The integer cube root, from the highest binary digit to the lowest. *)
Fixpoint cbrt (k : nat) (x c : N) : N :=
  match k with
  | O => c
  | S k' => let c' := c + 2 ^ N.of_nat k' in cbrt k' x (if c' ^ 3 <=? x then c' else c)
  end.
Definition s_K : list N := (λ p, cbrt 70 (p * 2 ^ 192) 0 mod 2 ^ 64) <$> primes.

(** 6.4.1: the hash value and the working variables a..h: eight words. *)
Record words8 := W8 { wa : N; wb : N; wc : N; wd : N; we : N; wf : N; wg : N; wh : N }.

(** 5.3.5: the initial value of SHA-512: the first sixty-four bits of the
    fractional parts of the square roots of the first eight primes. *)
Definition sqrt_frac (i : nat) : N := N.sqrt (nth i primes 0 * 2 ^ 128) mod 2 ^ 64.
Definition IV_512 : words8 :=
  W8 (sqrt_frac 0) (sqrt_frac 1) (sqrt_frac 2) (sqrt_frac 3)
     (sqrt_frac 4) (sqrt_frac 5) (sqrt_frac 6) (sqrt_frac 7).

(** 6.4.2 step 1: the message schedule W_0..W_79 of a block of sixteen words;
    W_t = g1 W_(t-2) + W_(t-7) + g0 W_(t-15) + W_(t-16). *)
Definition W_at (W : list N) (t : nat) : N := nth t W 0.
Fixpoint schedule (k : nat) (W : list N) : list N :=
  match k with
  | O => W
  | S k' =>
      let t := length W in
      schedule k' (W ++ [addw (addw (addw (g1 (W_at W (t - 2))) (W_at W (t - 7)))
                                    (g0 (W_at W (t - 15)))) (W_at W (t - 16))])
  end.

(** 6.4.2 step 3: round t with constant [k] and word [w]. *)
Definition round (v : words8) (k w : N) : words8 :=
  let T1 := addw (addw (addw (addw (wh v) (S1 (we v))) (s_Ch (we v) (wf v) (wg v))) k) w in
  let T2 := addw (S0 (wa v)) (s_Maj (wa v) (wb v) (wc v)) in
  W8 (addw T1 T2) (wa v) (wb v) (wc v) (addw (wd v) T1) (we v) (wf v) (wg v).
Fixpoint rounds (v : words8) (kws : list (N * N)) : words8 :=
  match kws with
  | [] => v
  | (k, w) :: r => rounds (round v k w) r
  end.

(** 6.4.2: one block. *)
Definition compress (v : words8) (M : list N) : words8 :=
  let r := rounds v (zip s_K (schedule 64 M)) in
  W8 (addw (wa v) (wa r)) (addw (wb v) (wb r)) (addw (wc v) (wc r)) (addw (wd v) (wd r))
     (addw (we v) (we r)) (addw (wf v) (wf r)) (addw (wg v) (wg r)) (addw (wh v) (wh r)).

(** 5.2.2: a block of 128 bytes as sixteen words, most significant byte first. *)
Fixpoint value (bs : list N) : N :=
  match bs with [] => 0 | b :: r => b * 256 ^ size r + value r end.
Definition block_words (blk : list N) : list N :=
  (λ i, value (take 8 (drop (8 * i) blk))) <$> seq 0 16.

(** The first [k] blocks of a byte string. *)
Fixpoint hash_blocks (k : nat) (v : words8) (bs : list N) : words8 :=
  match k with
  | O => v
  | S k' => hash_blocks k' (compress v (block_words (take 128 bs))) (drop 128 bs)
  end.

(** 5.1.2: padding: a one bit, the least number of zero bits that completes the
    last block, and the length in bits as a 128 bit number. *)
Definition zeros_needed (len : N) : N := (128 - (len + 17) mod 128) mod 128.
Definition padded (m : list N) : list N :=
  m ++ [128] ++ replicate (N.to_nat (zeros_needed (size m))) 0 ++ be 16 (8 * size m).

Definition digest (v : words8) (m : list N) : words8 :=
  hash_blocks (length (padded m) / 128) v (padded m).
Definition words_bytes (v : words8) : list N :=
  be 8 (wa v) ++ be 8 (wb v) ++ be 8 (wc v) ++ be 8 (wd v) ++
  be 8 (we v) ++ be 8 (wf v) ++ be 8 (wg v) ++ be 8 (wh v).

(** 6.4: SHA-512. *)
Definition SHA512 (m : list N) : list N := words_bytes (digest IV_512 m).

(** 5.3.6: the initial value of SHA-512/t is SHA-512, with its initial value
    xored with a5a5..., of the ASCII string "SHA-512/t". *)
Definition IV_gen : words8 :=
  let x w := N.lxor w 0xa5a5a5a5a5a5a5a5 in
  W8 (x (wa IV_512)) (x (wb IV_512)) (x (wc IV_512)) (x (wd IV_512))
     (x (we IV_512)) (x (wf IV_512)) (x (wg IV_512)) (x (wh IV_512)).
Definition ascii_name : list N := (* SHA-512/256 *)
  [0x53; 0x48; 0x41; 0x2d; 0x35; 0x31; 0x32; 0x2f; 0x32; 0x35; 0x36].
Definition IV_512_256 : words8 := digest IV_gen ascii_name.

(** 6.7: SHA-512/256: the first 256 bits. *)
Definition SHA512_256 (m : list N) : list N := take 32 (words_bytes (digest IV_512_256 m)).
