(** * Sha512Model: src/crypto/sha512.cpp and Accumulator::ParentHash

    Words are [N] below 2^64, bytes [N] below 256. *)
From Verif Require Import Base CodecModel.
Local Open Scope N_scope.

(** sha512.cpp:15-20.  [x >> r | x << (64 - r)] is a rotation; sigma0 and
    sigma1 end with a plain shift. *)
Definition rot (r x : N) : N := N.lor (N.shiftr x r) (w64 (N.shiftl x (64 - r))).
Definition Ch (x y z : N) : N := N.lxor z (N.land x (N.lxor y z)).
Definition Maj (x y z : N) : N := N.lor (N.land x y) (N.land z (N.lor x y)).
Definition Sigma0 (x : N) : N := N.lxor (N.lxor (rot 28 x) (rot 34 x)) (rot 39 x).
Definition Sigma1 (x : N) : N := N.lxor (N.lxor (rot 14 x) (rot 18 x)) (rot 41 x).
Definition sigma0 (x : N) : N := N.lxor (N.lxor (rot 1 x) (rot 8 x)) (N.shiftr x 7).
Definition sigma1 (x : N) : N := N.lxor (N.lxor (rot 19 x) (rot 61 x)) (N.shiftr x 6).

(** The state array s[8]. *)
Record regs := Regs { ra : N; rb : N; rc : N; rd : N; re : N; rf : N; rg : N; rh : N }.

(** sha512.cpp:32-42 Initialize and 45-55 Initialize256. *)
Definition Initialize : regs :=
  Regs 0x6a09e667f3bcc908 0xbb67ae8584caa73b 0x3c6ef372fe94f82b 0xa54ff53a5f1d36f1 0x510e527fade682d1 0x9b05688c2b3e6c1f 0x1f83d9abfb41bd6b 0x5be0cd19137e2179.
Definition Initialize256 : regs :=
  Regs 0x22312194fc2bf72c 0x9f555fa3c84c64c2 0x2393b86b6f53b151 0x963877195940eabd 0x96283ee2a88effe3 0xbe5e1e2553863992 0x2b0199fc2c85b8aa 0x0eb72ddc81c52ca2.

(** ** Transform

    The body of Transform is a straight line of 80 calls of Round.  Each call is
    one [rcall]: the eight variables passed for a..h (0 = a, ..., 7 = h), the
    constant, and the last argument:
    [WRead i off]      w_i = ReadBE64(chunk + off)
    [WUpd i x y z]     w_i += sigma1(w_x) + w_y + sigma0(w_z)
    [WTmp i x y z]     w_i + sigma1(w_x) + w_y + sigma0(w_z). *)
Inductive warg :=
| WRead (i off : nat)
| WUpd (i x y z : nat)
| WTmp (i x y z : nat).
Record rcall := RC { rc_args : list nat; rc_k : N; rc_w : warg }.

(** sha512.cpp:63-146, call by call. *)
Definition round_calls : list rcall :=
  [RC [0;1;2;3;4;5;6;7]%nat 0x428a2f98d728ae22 (WRead 0 0);
   RC [7;0;1;2;3;4;5;6]%nat 0x7137449123ef65cd (WRead 1 8);
   RC [6;7;0;1;2;3;4;5]%nat 0xb5c0fbcfec4d3b2f (WRead 2 16);
   RC [5;6;7;0;1;2;3;4]%nat 0xe9b5dba58189dbbc (WRead 3 24);
   RC [4;5;6;7;0;1;2;3]%nat 0x3956c25bf348b538 (WRead 4 32);
   RC [3;4;5;6;7;0;1;2]%nat 0x59f111f1b605d019 (WRead 5 40);
   RC [2;3;4;5;6;7;0;1]%nat 0x923f82a4af194f9b (WRead 6 48);
   RC [1;2;3;4;5;6;7;0]%nat 0xab1c5ed5da6d8118 (WRead 7 56);
   RC [0;1;2;3;4;5;6;7]%nat 0xd807aa98a3030242 (WRead 8 64);
   RC [7;0;1;2;3;4;5;6]%nat 0x12835b0145706fbe (WRead 9 72);
   RC [6;7;0;1;2;3;4;5]%nat 0x243185be4ee4b28c (WRead 10 80);
   RC [5;6;7;0;1;2;3;4]%nat 0x550c7dc3d5ffb4e2 (WRead 11 88);
   RC [4;5;6;7;0;1;2;3]%nat 0x72be5d74f27b896f (WRead 12 96);
   RC [3;4;5;6;7;0;1;2]%nat 0x80deb1fe3b1696b1 (WRead 13 104);
   RC [2;3;4;5;6;7;0;1]%nat 0x9bdc06a725c71235 (WRead 14 112);
   RC [1;2;3;4;5;6;7;0]%nat 0xc19bf174cf692694 (WRead 15 120);
   RC [0;1;2;3;4;5;6;7]%nat 0xe49b69c19ef14ad2 (WUpd 0 14 9 1);
   RC [7;0;1;2;3;4;5;6]%nat 0xefbe4786384f25e3 (WUpd 1 15 10 2);
   RC [6;7;0;1;2;3;4;5]%nat 0x0fc19dc68b8cd5b5 (WUpd 2 0 11 3);
   RC [5;6;7;0;1;2;3;4]%nat 0x240ca1cc77ac9c65 (WUpd 3 1 12 4);
   RC [4;5;6;7;0;1;2;3]%nat 0x2de92c6f592b0275 (WUpd 4 2 13 5);
   RC [3;4;5;6;7;0;1;2]%nat 0x4a7484aa6ea6e483 (WUpd 5 3 14 6);
   RC [2;3;4;5;6;7;0;1]%nat 0x5cb0a9dcbd41fbd4 (WUpd 6 4 15 7);
   RC [1;2;3;4;5;6;7;0]%nat 0x76f988da831153b5 (WUpd 7 5 0 8);
   RC [0;1;2;3;4;5;6;7]%nat 0x983e5152ee66dfab (WUpd 8 6 1 9);
   RC [7;0;1;2;3;4;5;6]%nat 0xa831c66d2db43210 (WUpd 9 7 2 10);
   RC [6;7;0;1;2;3;4;5]%nat 0xb00327c898fb213f (WUpd 10 8 3 11);
   RC [5;6;7;0;1;2;3;4]%nat 0xbf597fc7beef0ee4 (WUpd 11 9 4 12);
   RC [4;5;6;7;0;1;2;3]%nat 0xc6e00bf33da88fc2 (WUpd 12 10 5 13);
   RC [3;4;5;6;7;0;1;2]%nat 0xd5a79147930aa725 (WUpd 13 11 6 14);
   RC [2;3;4;5;6;7;0;1]%nat 0x06ca6351e003826f (WUpd 14 12 7 15);
   RC [1;2;3;4;5;6;7;0]%nat 0x142929670a0e6e70 (WUpd 15 13 8 0);
   RC [0;1;2;3;4;5;6;7]%nat 0x27b70a8546d22ffc (WUpd 0 14 9 1);
   RC [7;0;1;2;3;4;5;6]%nat 0x2e1b21385c26c926 (WUpd 1 15 10 2);
   RC [6;7;0;1;2;3;4;5]%nat 0x4d2c6dfc5ac42aed (WUpd 2 0 11 3);
   RC [5;6;7;0;1;2;3;4]%nat 0x53380d139d95b3df (WUpd 3 1 12 4);
   RC [4;5;6;7;0;1;2;3]%nat 0x650a73548baf63de (WUpd 4 2 13 5);
   RC [3;4;5;6;7;0;1;2]%nat 0x766a0abb3c77b2a8 (WUpd 5 3 14 6);
   RC [2;3;4;5;6;7;0;1]%nat 0x81c2c92e47edaee6 (WUpd 6 4 15 7);
   RC [1;2;3;4;5;6;7;0]%nat 0x92722c851482353b (WUpd 7 5 0 8);
   RC [0;1;2;3;4;5;6;7]%nat 0xa2bfe8a14cf10364 (WUpd 8 6 1 9);
   RC [7;0;1;2;3;4;5;6]%nat 0xa81a664bbc423001 (WUpd 9 7 2 10);
   RC [6;7;0;1;2;3;4;5]%nat 0xc24b8b70d0f89791 (WUpd 10 8 3 11);
   RC [5;6;7;0;1;2;3;4]%nat 0xc76c51a30654be30 (WUpd 11 9 4 12);
   RC [4;5;6;7;0;1;2;3]%nat 0xd192e819d6ef5218 (WUpd 12 10 5 13);
   RC [3;4;5;6;7;0;1;2]%nat 0xd69906245565a910 (WUpd 13 11 6 14);
   RC [2;3;4;5;6;7;0;1]%nat 0xf40e35855771202a (WUpd 14 12 7 15);
   RC [1;2;3;4;5;6;7;0]%nat 0x106aa07032bbd1b8 (WUpd 15 13 8 0);
   RC [0;1;2;3;4;5;6;7]%nat 0x19a4c116b8d2d0c8 (WUpd 0 14 9 1);
   RC [7;0;1;2;3;4;5;6]%nat 0x1e376c085141ab53 (WUpd 1 15 10 2);
   RC [6;7;0;1;2;3;4;5]%nat 0x2748774cdf8eeb99 (WUpd 2 0 11 3);
   RC [5;6;7;0;1;2;3;4]%nat 0x34b0bcb5e19b48a8 (WUpd 3 1 12 4);
   RC [4;5;6;7;0;1;2;3]%nat 0x391c0cb3c5c95a63 (WUpd 4 2 13 5);
   RC [3;4;5;6;7;0;1;2]%nat 0x4ed8aa4ae3418acb (WUpd 5 3 14 6);
   RC [2;3;4;5;6;7;0;1]%nat 0x5b9cca4f7763e373 (WUpd 6 4 15 7);
   RC [1;2;3;4;5;6;7;0]%nat 0x682e6ff3d6b2b8a3 (WUpd 7 5 0 8);
   RC [0;1;2;3;4;5;6;7]%nat 0x748f82ee5defb2fc (WUpd 8 6 1 9);
   RC [7;0;1;2;3;4;5;6]%nat 0x78a5636f43172f60 (WUpd 9 7 2 10);
   RC [6;7;0;1;2;3;4;5]%nat 0x84c87814a1f0ab72 (WUpd 10 8 3 11);
   RC [5;6;7;0;1;2;3;4]%nat 0x8cc702081a6439ec (WUpd 11 9 4 12);
   RC [4;5;6;7;0;1;2;3]%nat 0x90befffa23631e28 (WUpd 12 10 5 13);
   RC [3;4;5;6;7;0;1;2]%nat 0xa4506cebde82bde9 (WUpd 13 11 6 14);
   RC [2;3;4;5;6;7;0;1]%nat 0xbef9a3f7b2c67915 (WUpd 14 12 7 15);
   RC [1;2;3;4;5;6;7;0]%nat 0xc67178f2e372532b (WUpd 15 13 8 0);
   RC [0;1;2;3;4;5;6;7]%nat 0xca273eceea26619c (WUpd 0 14 9 1);
   RC [7;0;1;2;3;4;5;6]%nat 0xd186b8c721c0c207 (WUpd 1 15 10 2);
   RC [6;7;0;1;2;3;4;5]%nat 0xeada7dd6cde0eb1e (WUpd 2 0 11 3);
   RC [5;6;7;0;1;2;3;4]%nat 0xf57d4f7fee6ed178 (WUpd 3 1 12 4);
   RC [4;5;6;7;0;1;2;3]%nat 0x06f067aa72176fba (WUpd 4 2 13 5);
   RC [3;4;5;6;7;0;1;2]%nat 0x0a637dc5a2c898a6 (WUpd 5 3 14 6);
   RC [2;3;4;5;6;7;0;1]%nat 0x113f9804bef90dae (WUpd 6 4 15 7);
   RC [1;2;3;4;5;6;7;0]%nat 0x1b710b35131c471b (WUpd 7 5 0 8);
   RC [0;1;2;3;4;5;6;7]%nat 0x28db77f523047d84 (WUpd 8 6 1 9);
   RC [7;0;1;2;3;4;5;6]%nat 0x32caab7b40c72493 (WUpd 9 7 2 10);
   RC [6;7;0;1;2;3;4;5]%nat 0x3c9ebe0a15c9bebc (WUpd 10 8 3 11);
   RC [5;6;7;0;1;2;3;4]%nat 0x431d67c49c100d4c (WUpd 11 9 4 12);
   RC [4;5;6;7;0;1;2;3]%nat 0x4cc5d4becb3e42b6 (WUpd 12 10 5 13);
   RC [3;4;5;6;7;0;1;2]%nat 0x597f299cfc657e2a (WUpd 13 11 6 14);
   RC [2;3;4;5;6;7;0;1]%nat 0x5fcb6fab3ad6faec (WTmp 14 12 7 15);
   RC [1;2;3;4;5;6;7;0]%nat 0x6c44198c4a475817 (WTmp 15 13 8 0)].

(** A local variable: reading w_i before it is assigned is undefined. *)
Definition get_w (ws : list (option N)) (i : nat) : res N :=
  match ws !! i with Some (Some x) => Ok x | _ => UB end.

(** The value of the last argument and the words after it is evaluated. *)
Definition eval_warg (chunk : list N) (ws : list (option N)) (a : warg)
    : res (N * list (option N)) :=
  match a with
  | WRead i off =>
      let x := be_value (take 8 (drop off chunk)) in Ok (x, <[i := Some x]> ws)
  | WUpd i x y z =>
      let* wi := get_w ws i in
      let* wx := get_w ws x in
      let* wy := get_w ws y in
      let* wz := get_w ws z in
      let v := w64 (wi + (sigma1 wx + wy + sigma0 wz)) in
      Ok (v, <[i := Some v]> ws)
  | WTmp i x y z =>
      let* wi := get_w ws i in
      let* wx := get_w ws x in
      let* wy := get_w ws y in
      let* wz := get_w ws z in
      Ok (w64 (wi + sigma1 wx + wy + sigma0 wz), ws)
  end.

(** sha512.cpp:22-29 Round on the variables [args]: d and h are passed by
    reference. *)
Definition Round (vs : list N) (args : list nat) (k w : N) : res (list N) :=
  match args with
  | [a; b; c; d; e; f; g; h] =>
      match vs !! a, vs !! b, vs !! c, vs !! d, vs !! e, vs !! f, vs !! g, vs !! h with
      | Some va, Some vb, Some vc, Some vd, Some ve, Some vf, Some vg, Some vh =>
          let t1 := w64 (vh + Sigma1 ve + Ch ve vf vg + k + w) in
          let t2 := w64 (Sigma0 va + Maj va vb vc) in
          Ok (<[h := w64 (t1 + t2)]> (<[d := w64 (vd + t1)]> vs))
      | _, _, _, _, _, _, _, _ => UB
      end
  | _ => UB
  end.

Definition do_call (chunk : list N) (st : list N * list (option N)) (c : rcall)
    : res (list N * list (option N)) :=
  let* r := eval_warg chunk st.2 (rc_w c) in
  let* vs := Round st.1 (rc_args c) (rc_k c) r.1 in
  Ok (vs, r.2).

(** sha512.cpp:58-156 Transform. *)
Definition sha_Transform (s : regs) (chunk : list N) : res regs :=
  let* r := foldM (do_call chunk)
              ([ra s; rb s; rc s; rd s; re s; rf s; rg s; rh s], replicate 16 None) round_calls in
  match r.1 with
  | [a; b; c; d; e; f; g; h] =>
      Ok (Regs (w64 (ra s + a)) (w64 (rb s + b)) (w64 (rc s + c)) (w64 (rd s + d))
               (w64 (re s + e)) (w64 (rf s + f)) (w64 (rg s + g)) (w64 (rh s + h)))
  | _ => UB
  end.

(** sha512.h:14-34 class CSHA512: state, 128 byte buffer, byte counter. *)
Record csha := CSHA { cs_s : regs; cs_buf : list N; cs_bytes : N }.

(** [memcpy(buf + off, data, len)]; writing past the 128 byte array is
    undefined. *)
Definition buf_copy (buf : list N) (off : N) (data : list N) : res (list N) :=
  if off + size data <=? size buf
  then Ok (take (N.to_nat off) buf ++ data ++ drop (N.to_nat off + length data) buf) else UB.

(** sha512.cpp:171-180, output size 256 or other.  The array [buf] is
    uninitialised in C++; [buf] is an arbitrary content of length 128. *)
Definition CSHA512_256 (buf : list N) : csha := CSHA Initialize256 buf 0.
Definition CSHA512_512 (buf : list N) : csha := CSHA Initialize buf 0.

(** sha512.cpp:194-199: process full chunks from the source. *)
Fixpoint write_chunks (fuel : nat) (s : regs) (bytes : N) (data : list N) : res (regs * N * list N) :=
  if 128 <=? size data then
    match fuel with
    | O => NoFuel
    | S f =>
        let* s' := sha_Transform s (take 128 data) in
        write_chunks f s' (w64 (bytes + 128)) (drop 128 data)
    end
  else Ok (s, bytes, data).

(** sha512.cpp:182-206 Write. *)
Definition sha_Write (c : csha) (data : list N) : res csha :=
  let bufsize := cs_bytes c mod 128 in
  let* c1 :=
    (if negb (bufsize =? 0) && (128 <=? bufsize + size data) then
       let k := 128 - bufsize in
       let* b := buf_copy (cs_buf c) bufsize (take (N.to_nat k) data) in
       let* s' := sha_Transform (cs_s c) b in
       Ok (CSHA s' b (w64 (cs_bytes c + k)), drop (N.to_nat k) data, 0)
     else Ok (c, data, bufsize)) in
  let '(c1, data1, bufsize1) := c1 in
  let* w := write_chunks (S (length data1)) (cs_s c1) (cs_bytes c1) data1 in
  let '(s2, bytes2, data2) := w in
  if 0 <? size data2 then
    let* b := buf_copy (cs_buf c1) bufsize1 data2 in
    Ok (CSHA s2 b (w64 (bytes2 + size data2)))
  else Ok (CSHA s2 (cs_buf c1) bytes2).

(** The common part of Finalize and Finalize256, sha512.cpp:210-214, 227-231.
    [bytes << 3] is a uint64_t; [pad] has 128 bytes, of which
    1 + ((239 - bytes % 128) % 128) <= 128 are written. *)
Definition sha_finish (c : csha) : res csha :=
  let sizedesc := replicate 8 0 ++ be_bytes 8 (w64 (N.shiftl (cs_bytes c) 3)) in
  let pad := 0x80 :: replicate (N.to_nat ((239 - cs_bytes c mod 128) mod 128)) 0 in
  let* c1 := sha_Write c pad in
  sha_Write c1 sizedesc.

(** sha512.cpp:208-223 Finalize and 225-236 Finalize256 (output bytes). *)
Definition sha_Finalize (c : csha) : res (list N) :=
  let* c1 := sha_finish c in
  let s := cs_s c1 in
  Ok (be_bytes 8 (ra s) ++ be_bytes 8 (rb s) ++ be_bytes 8 (rc s) ++ be_bytes 8 (rd s) ++
      be_bytes 8 (re s) ++ be_bytes 8 (rf s) ++ be_bytes 8 (rg s) ++ be_bytes 8 (rh s)).
Definition sha_Finalize256 (c : csha) : res (list N) :=
  let* c1 := sha_finish c in
  let s := cs_s c1 in
  Ok (be_bytes 8 (ra s) ++ be_bytes 8 (rb s) ++ be_bytes 8 (rc s) ++ be_bytes 8 (rd s)).

(** sha512.cpp:238-243 Reset. *)
Definition sha_Reset (c : csha) : csha := CSHA Initialize (cs_buf c) 0.

(** accumulator.cpp:62-68 Accumulator::ParentHash ([buf] as above). *)
Definition ParentHash_bytes (buf left right : list N) : res (list N) :=
  let* c1 := sha_Write (CSHA512_256 buf) left in
  let* c2 := sha_Write c1 right in
  sha_Finalize256 c2.
Definition ParentHash (left right : hash) : res hash :=
  let* b := ParentHash_bytes (replicate 128 0) (hash_bytes left) (hash_bytes right) in
  Ok (be_value b).

(** [ParentHash] as a total function, for running the model; C34 shows that the
    error branch is never taken. *)
Definition parent_hash (left right : hash) : hash :=
  match ParentHash left right with Ok h => h | _ => 0 end.
