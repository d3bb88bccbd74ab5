(** parser_utils.h, parser_utils.c and parser_primitives.c. *)
From Verif Require Import Base Zxlib Crypto.

(** * Fixed-width integers *)

(** parser_utils.h 87-101 (GEN_DEC_READFIX_UNSIGNED), parser_utils.c 9-15:
    [k] bytes, little endian; the end of the buffer is checked before each. *)
Fixpoint read_le (k : nat) : P Z :=
  match k with
  | O => ret 0
  | S k' =>
      o <- get_off ;;
      n <- ask blen ;;
      check (o <? n) parser_unexpected_buffer_end ;;
      b <- mem_at o ;;
      advance 1 ;;
      r <- read_le k' ;;
      ret (b + 256 * r)
  end.
Definition readU8 : P Z := read_le 1.
Definition readU16 : P Z := read_le 2.
Definition readU32 : P Z := read_le 4.
Definition readU64 : P Z := read_le 8.

(** * CLType tags: runtime_arg.h 24-46 *)
Definition TAG_BOOL := 0.    Definition TAG_I32 := 1.     Definition TAG_I64 := 2.
Definition TAG_U8 := 3.      Definition TAG_U32 := 4.     Definition TAG_U64 := 5.
Definition TAG_U128 := 6.    Definition TAG_U256 := 7.    Definition TAG_U512 := 8.
Definition TAG_UNIT := 9.    Definition TAG_STRING := 10. Definition TAG_KEY := 11.
Definition TAG_UREF := 12.   Definition TAG_OPTION := 13. Definition TAG_LIST := 14.
Definition TAG_BYTE_ARRAY := 15. Definition TAG_RESULT := 16. Definition TAG_MAP := 17.
Definition TAG_TUPLE1 := 18. Definition TAG_TUPLE2 := 19. Definition TAG_TUPLE3 := 20.
Definition TAG_ANY := 21.    Definition TAG_PUBLIC_KEY := 22.
(** parser_txdef.h 47 *)
Definition NUM_RUNTIME_TYPES := 22.

(** parser_utils.c 40-42 *)
Definition is_container_type (t : Z) : bool :=
  (t =? TAG_OPTION) || (t =? TAG_LIST) || ((TAG_RESULT <=? t) && (t <=? TAG_ANY)).
(** parser_utils.c 44 *)
Definition is_map_type (t : Z) : bool := t =? TAG_MAP.

(** parser_utils.c 46-52 *)
Definition check_runtime_type (t : Z) : P unit :=
  check (t <=? NUM_RUNTIME_TYPES) parser_context_unknown_prefix.

(** parser_utils.c 54-65: the sum is computed in 32 bits, the cursor in 16. *)
Definition parse_item : P unit :=
  part <- readU32 ;;
  o <- get_off ;;
  n <- ask blen ;;
  check (u32 (o + part) <=? n) parser_unexpected_buffer_end ;;
  advance part.

(** [err | q]: both are evaluated, the codes are ORed.  [it] is the
    option_type variable shared by the two calls. *)
Definition por (it : Z) (p : P Z) (q : Z -> P Z) : P Z :=
  r <- try p ;;
  match r with
  | inl it' => q it'
  | inr e1 =>
      r2 <- try (q it) ;;
      match r2 with
      | inl _ => fail e1
      | inr e2 => fail (Z.lor e1 e2)
      end
  end.

(** parser_utils.c 82-225.  [it] is the value of *option_type on entry, the
    result is its value on exit.  Depth is at most 3 (a map of containers of
    non-containers); [fuel] 3 is never exhausted (proved). *)
Fixpoint parse_additional_typebytes (fuel : nat) (t it : Z) : P Z :=
  match fuel with
  | O => undef FuelOut
  | S f =>
    if (t <=? TAG_UREF) || (t =? TAG_PUBLIC_KEY) || (t =? TAG_ANY) then ret it
    else if t =? TAG_OPTION then
      i <- readU8 ;;
      if is_container_type i then fail parser_unexpected_type
      else parse_additional_typebytes f i 255 ;; ret i
    else if t =? TAG_BYTE_ARRAY then readU32 ;; ret it
    else if t =? TAG_LIST then
      i <- readU8 ;;
      if i =? TAG_ANY then ret it
      else if is_container_type i then fail parser_unexpected_type
      else parse_additional_typebytes f i i ;; ret i
    else if t =? TAG_RESULT then
      a <- readU8 ;;
      b <- readU8 ;;
      if is_container_type a || is_container_type b then fail parser_unexpected_type
      else por it (parse_additional_typebytes f a it) (parse_additional_typebytes f b)
    else if t =? TAG_TUPLE1 then
      a <- readU8 ;;
      if is_container_type a then fail parser_unexpected_type
      else parse_additional_typebytes f a 0 ;; ret it
    else if t =? TAG_TUPLE2 then
      a <- readU8 ;;
      if is_container_type a then fail parser_unexpected_type else
      b <- readU8 ;;
      if is_container_type b then fail parser_unexpected_type
      else por 0 (parse_additional_typebytes f a 0) (parse_additional_typebytes f b) ;; ret it
    else if t =? TAG_TUPLE3 then
      a <- readU8 ;;
      if is_container_type a then fail parser_unexpected_type else
      b <- readU8 ;;
      if is_container_type b then fail parser_unexpected_type else
      c <- readU8 ;;
      if is_container_type c then fail parser_unexpected_type
      else por 0 (por 0 (parse_additional_typebytes f a 0) (parse_additional_typebytes f b))
                 (parse_additional_typebytes f c) ;; ret it
    else if t =? TAG_MAP then
      a <- readU8 ;;
      b <- readU8 ;;
      if is_map_type a || is_map_type b then fail parser_unexpected_type
      else por it (parse_additional_typebytes f a it) (parse_additional_typebytes f b)
    else fail parser_unexpected_type
  end.

(** parser_utils.c 67-74: (runtime_type, option_type). *)
Definition get_type (it : Z) : P (Z * Z) :=
  t <- readU8 ;;
  check_runtime_type t ;;
  it' <- parse_additional_typebytes 3 t it ;;
  ret (t, it').

(** *(uint32_t * )&ctx->offset: the offset and the 16 bits stored after it. *)
Definition off32 : P Z := o <- get_off ;; h <- ask hi16 ;; ret (o + 65536 * h).

(** parser_utils.c 76-80 *)
Definition parseTotalLength (start : Z) : P Z :=
  x <- off32 ;;
  check (start <? x) parser_unexpected_error ;;
  ret (u32 (x - start + 1)).

(** * Text *)

(** pageString of a zero-filled array of [cap] bytes holding [bs]:
    strlen needs a NUL inside the array. *)
Definition c_text (cap : Z) (bs : list Z) : outcome (list Z) :=
  if existsb (Z.eqb 0) bs || (zlen bs <? cap) then Ret (cstr bs) else Undef Unterminated.

(** parser_utils.c 227-238: decimal value of every byte, concatenated in a
    100-byte array (strncat stops at 99 characters). *)
Definition parser_printByHashAddress (bs : list Z) : dval :=
  VPaged (firstn 99 (flat_map dec bs)).

(** parser_utils.c 240-247 on bytes already read; the result of encode is
    ignored, its 100-byte output array must keep a terminator. *)
Definition printBytes (H : list Z -> list Z) (bs : list Z) : outcome dval :=
  match encode H bs with
  | Ret s => if zlen s <? 100 then Ret (VPaged s) else Undef Unterminated
  | Fail _ => Ret (VPaged [])
  | Undef u => Undef u
  end.
(** parser_utils.c 240-247 on the bytes at ctx->buffer + [o]: the length is
    converted to uint8_t by encode, which refuses (without reading) when
    twice the length, modulo 256, exceeds 100. *)
Definition parser_printBytes (o len : Z) : P dval :=
  let n := u8 len in
  if MAX_NIBBLE_LEN <? u8 (2 * n) then ret (VPaged [])
  else bs <- mem_slice o n ;; H <- ask hash ;; lift (printBytes H bs).

(** parser_utils.c 249-258 *)
Definition parser_printAddress (o len : Z) : P dval :=
  bs <- mem_slice o len ;;
  H <- ask hash ;;
  r <- lift (encode_addr H 100 bs) ;;
  if zlen (fst r) <? 100 then ret (VPaged (fst r)) else undef Unterminated.

(** parser_utils.c 260-279: parser_printU8, parser_printU32, parser_printU64 *)
Definition printUInt (v : Z) : dval := VPaged (dec v).

(** parser_utils.c 349-404: add_thousand_separators(out, outLen, number),
    for a number without decimal point (the only use).  The C function copies
    the first group and then each digit preceded by a space every third. *)
Fixpoint group3 (n : nat) (s : list Z) : list Z :=
  match s with
  | [] => []
  | c :: r => if (Nat.eqb (Nat.modulo n 3) 0) then 32 :: c :: group3 (S n) r else c :: group3 (S n) r
  end.
Definition add_thousand_separators (outLen : Z) (number : list Z) : outcome (list Z) :=
  let len := zlen number in
  if len =? 0 then Ret (str "0")
  else if len <=? 3 then Ret (firstn (Z.to_nat outLen) number)
  else if outLen <=? len + (len - 1) / 3 then Fail parser_unexpected_buffer_end
  else
    let g := if len mod 3 =? 0 then 3 else len mod 3 in
    Ret (firstn (Z.to_nat g) number ++ group3 0 (skipn (Z.to_nat g) number)).

(** parser_utils.h 17-28: DISPLAY_STRING; a 100-byte array. *)
Definition DISPLAY_STRING (key : list Z) (o len : Z) : P item :=
  check (len <=? 100) parser_unexpected_buffer_end ;;
  bs <- mem_slice o len ;;
  s <- lift (c_text 100 bs) ;;
  ret (mkItem key (VPaged s)).

(** * parser_primitives.c *)

(** parser_txdef.h 34, 116-121: parser_metadata_txnV1_t.  [field_offsets]
    lists the entries read; entries beyond num_fields are zero. *)
Definition MAX_METADATA_FIELDS := 10.
Record metadata := mkMeta {
  num_fields : Z; metadata_size : Z; field_offsets : list Z; fields_size : Z }.
Definition foff (m : metadata) (i : nat) : Z := nth i (field_offsets m) 0.

(** parser_primitives.c 36-43 *)
Fixpoint read_field_offsets (k : nat) (i : Z) : P (list Z) :=
  match k with
  | O => ret []
  | S k' =>
      index <- readU16 ;;
      check (index =? i) parser_unexpected_field_offset ;;
      off <- readU32 ;;
      r <- read_field_offsets k' (i + 1) ;;
      ret (off :: r)
  end.

(** parser_primitives.c 24-50.  num_fields is stored in 8 bits before it is
    checked; fields_size keeps the low 16 bits of the 32 read (the 32-bit
    store also covers the two padding bytes of the struct). *)
Definition read_metadata : P metadata :=
  n <- ask blen ;;
  check (negb (n =? 0)) parser_unexpected_value ;;
  start <- get_off ;;
  nf32 <- readU32 ;;
  let nf := u8 nf32 in
  check ((0 <? nf) && (nf <=? MAX_METADATA_FIELDS)) parser_unexpected_number_fields ;;
  offs <- read_field_offsets (Z.to_nat nf) 0 ;;
  fs <- readU32 ;;
  o <- get_off ;;
  ret (mkMeta nf (u16 (o - start)) offs (u16 fs)).

(** parser_primitives.c 53-64 and 67-78: read_string, read_bytes *)
Definition read_bytes : P Z :=
  len <- readU32 ;;
  o <- get_off ;;
  n <- ask blen ;;
  check (u32 (o + len) <=? n) parser_unexpected_value ;;
  advance len ;;
  ret len.
Definition read_string : P Z := read_bytes.

(** parser_primitives.c 80-88 *)
Definition read_bool : P Z :=
  b <- readU8 ;;
  check ((b =? 0) || (b =? 1)) parser_unexpected_value ;;
  ret b.

(** parser_utils.h 12 *)
Definition NO_ENTITY_VERSION_PRESENT := 4294967295.
(** parser_primitives.c 91-106 *)
Definition read_entity_version : P Z :=
  t <- read_bool ;;
  if t =? 1 then readU32 else ret NO_ENTITY_VERSION_PRESENT.

(** parser_primitives.c 182-185 *)
Definition read_hash : P unit := advance 32.

(** parser_primitives.c 109-138 *)
Definition read_runtime : P unit :=
  read_metadata ;;
  r <- readU8 ;;
  if r =? 1 then
    readU64 ;;
    s <- readU8 ;;
    if s =? 1 then read_hash
    else check (s =? 0) parser_unexpected_value
  else check (r =? 0) parser_unexpected_value.

(** parser_primitives.c 141-144 *)
Definition read_entity_address : P unit := read_hash.

(** parser_primitives.c 146-155 *)
Definition read_clvalue : P unit :=
  read_bytes ;;
  get_type 0 ;;
  ret tt.

(** parser_primitives.c 157-170 *)
Definition read_public_key : P unit :=
  t <- readU8 ;;
  check ((t =? 0) || (t =? 1) || (t =? 2)) parser_unexpected_value ;;
  if t =? 1 then advance 32 else if t =? 2 then advance 33 else ret tt.

(** parser_primitives.c 172-180 *)
Definition read_signature : P unit :=
  t <- readU8 ;;
  check ((t =? 1) || (t =? 2)) parser_unexpected_value ;;
  advance 64.
