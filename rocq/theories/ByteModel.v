(** * ByteModel: crypto/common.h, compat/endian.h and compat/byteswap.h (model)

    The other model files use the byte order helpers by what their names say
    ([CodecModel.ReadBE32] and so on).  Here they are written out, with [memcpy] on
    the object representation of the machine. *)
From Verif Require Import Base StateModel CodecModel.

(** What the result depends on. *)
Record host := Host {
  h_big : bool;    (** the machine stores the most significant byte first *)
  h_words_big : bool;   (** WORDS_BIGENDIAN is defined *)
  h_decl : bool    (** HAVE_DECL_HTOBE32 and so on: the functions of the system are used *) }.

(** The object representation of an unsigned integer of [k] bytes, and back. *)
Definition mem_bytes (h : host) (k : nat) (x : N) : list N := if h_big h then be_bytes k x else rev (be_bytes k x).
Definition mem_value (h : host) (bs : list N) : N := be_value (if h_big h then bs else rev bs).

(** compat/byteswap.h:29-32, 36-40 and 44-54.  (In bswap_16 the operands are
    promoted to [int]; the conversion to uint16_t drops the high bits.) *)
Definition bswap_16 (x : N) : N := N.lor (N.shiftr x 8) (N.shiftl x 8) mod 65536.
Definition bswap_32 (x : N) : N :=
  N.lor (N.lor (N.lor (N.shiftr (N.land x 0xff000000) 24) (N.shiftr (N.land x 0x00ff0000) 8))
    (N.shiftl (N.land x 0x0000ff00) 8 mod two32)) (N.shiftl (N.land x 0x000000ff) 24 mod two32).
Definition bswap_64 (x : N) : N :=
  N.lor (N.lor (N.lor (N.lor (N.lor (N.lor (N.lor
    (N.shiftr (N.land x 0xff00000000000000) 56)
    (N.shiftr (N.land x 0x00ff000000000000) 40))
    (N.shiftr (N.land x 0x0000ff0000000000) 24))
    (N.shiftr (N.land x 0x000000ff00000000) 8))
    (N.shiftl (N.land x 0x00000000ff000000) 8 mod two64))
    (N.shiftl (N.land x 0x0000000000ff0000) 24 mod two64))
    (N.shiftl (N.land x 0x000000000000ff00) 40 mod two64))
    (N.shiftl (N.land x 0x00000000000000ff) 56 mod two64).

(** The functions of the system: from the order of the machine to big (little)
    endian; the same function converts back. *)
Definition sys_be (h : host) (k : nat) (x : N) : N := be_value (mem_bytes h k x).
Definition sys_le (h : host) (k : nat) (x : N) : N := be_value (rev (mem_bytes h k x)).

(** compat/endian.h:66-239.  Each of the four conversions of one width is the
    identity or the byte swap, depending on WORDS_BIGENDIAN. *)
Definition htobe32 (h : host) (x : N) : N := if h_decl h then sys_be h 4 x else if h_words_big h then x else bswap_32 x.
Definition htobe64 (h : host) (x : N) : N := if h_decl h then sys_be h 8 x else if h_words_big h then x else bswap_64 x.
Definition htole16 (h : host) (x : N) : N := if h_decl h then sys_le h 2 x else if h_words_big h then bswap_16 x else x.
Definition htole32 (h : host) (x : N) : N := if h_decl h then sys_le h 4 x else if h_words_big h then bswap_32 x else x.
Definition htole64 (h : host) (x : N) : N := if h_decl h then sys_le h 8 x else if h_words_big h then bswap_64 x else x.
Definition be32toh := htobe32.
Definition be64toh := htobe64.
Definition le16toh := htole16.
Definition le32toh := htole32.
Definition le64toh := htole64.

(** crypto/common.h:17-80.  The buffer is read at [off]; reading past its end is
    undefined. *)
Definition mReadLE16 (h : host) (bytes : list N) (off : N) : res N := let* b := read_bytes bytes off 2 in Ok (le16toh h (mem_value h b)).
Definition mReadLE32 (h : host) (bytes : list N) (off : N) : res N := let* b := read_bytes bytes off 4 in Ok (le32toh h (mem_value h b)).
Definition mReadLE64 (h : host) (bytes : list N) (off : N) : res N := let* b := read_bytes bytes off 8 in Ok (le64toh h (mem_value h b)).
Definition mReadBE32 (h : host) (bytes : list N) (off : N) : res N := let* b := read_bytes bytes off 4 in Ok (be32toh h (mem_value h b)).
Definition mReadBE64 (h : host) (bytes : list N) (off : N) : res N := let* b := read_bytes bytes off 8 in Ok (be64toh h (mem_value h b)).
Definition mWriteLE16 (h : host) (x : N) : list N := mem_bytes h 2 (htole16 h (x mod 65536)).
Definition mWriteLE32 (h : host) (x : N) : list N := mem_bytes h 4 (htole32 h (x mod two32)).
Definition mWriteLE64 (h : host) (x : N) : list N := mem_bytes h 8 (htole64 h (x mod two64)).
Definition mWriteBE32 (h : host) (x : N) : list N := mem_bytes h 4 (htobe32 h (x mod two32)).
Definition mWriteBE64 (h : host) (x : N) : list N := mem_bytes h 8 (htobe64 h (x mod two64)).

(** ram_forest.cpp:15 RamForest::LeafHasher, the bucket hash of the position map. *)
Definition LeafHasher (h : host) (x : hash) : res N := mReadLE64 h (hash_bytes x) 0.

(** crypto/common.h:83-101 CountBits without the builtins: [configure.ac] does not
    look for them.  A uint64_t is zero after 64 turns. *)
Fixpoint count_bits_loop (fuel : nat) (x ret : N) : res N :=
  if x =? 0 then Ok ret else
  match fuel with
  | O => NoFuel
  | S f => count_bits_loop f (N.shiftr x 1) (ret + 1)
  end.
Definition CountBitsLoop (x : N) : res N := count_bits_loop 64 x 0.
