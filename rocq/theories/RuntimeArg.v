(** Runtime arguments: runtime_arg.c and the argument half of parser.c. *)
From Verif Require Import Base Zxlib Crypto Utils.

(** parser_impl_deploy.c 107-122: copy_item_into_charbuffer into a zeroed
    array of [cap] bytes ([cap] > 4 at every call); result: the bytes copied. *)
Definition copy_item_into_charbuffer (cap : Z) : P (list Z) :=
  part <- readU32 ;;
  o <- get_off ;;
  n <- ask blen ;;
  check ((part <=? cap) && (part <=? n - o)) parser_unexpected_buffer_end ;;
  bs <- mem_slice o part ;;
  advance part ;;
  ret bs.

(** strcmp(buffer, literal) == 0; the literal is shorter than the buffer. *)
Definition name_is (buf lit : list Z) : bool := list_eqb (cstr buf) lit.

(** One argument skipped: runtime_arg.c 31-37. *)
Definition skip_arg : P unit := parse_item ;; parse_item ;; get_type 0 ;; ret tt.

(** runtime_arg.c 27-40 *)
Definition parseRuntimeArgs (n : Z) : P unit :=
  loop (R := unit) n (fun _ => skip_arg ;; ret (Next tt)) tt ;; ret tt.

(** runtime_arg.c 42-71: (type, internal_type).  internal_type is only read
    by callers when type is TAG_OPTION, and get_type always writes it then;
    the value left by an earlier search is therefore not threaded. *)
Definition search_body (start : Z) (arg : list Z) (_ : unit) : P (flow unit (Z * Z)) :=
  name <- copy_item_into_charbuffer 300 ;;
  if name_is name arg then
    parse_item ;;
    t <- get_type 0 ;;
    set_off start ;;
    ret (Done t)
  else
    parse_item ;;
    get_type 0 ;;
    ret (Next tt).
Definition searchRuntimeArgs (arg : list Z) (n : Z) : P (Z * Z) :=
  start <- get_off ;;
  r <- loop n (search_body start arg) tt ;;
  match r with
  | Done t => ret t
  | Next _ => set_off start ;; fail parser_runtimearg_notfound
  end.

(** parser.c 302-337: (length, type), the cursor left at the value. *)
Definition getData_body (key : list Z) (_ : unit) : P (flow unit (Z * Z)) :=
  name <- copy_item_into_charbuffer 300 ;;
  if name_is name key then
    len <- readU32 ;;
    o <- get_off ;;
    n <- ask blen ;;
    check (len <=? n - o) parser_unexpected_buffer_end ;;
    advance len ;;
    t <- get_type 0 ;;
    set_off o ;;
    ret (Done (len, fst t))
  else
    parse_item ;;
    get_type 0 ;;
    ret (Next tt).
Definition getData (key : list Z) (n : Z) : P (Z * Z) :=
  r <- loop n (getData_body key) tt ;;
  match r with
  | Done x => ret x
  | Next _ => fail parser_no_data
  end.

(** runtime_arg.c 73-103, for a literal name shorter than 35 characters. *)
Definition showRuntimeArgsHash (bytes_len : Z) (name : list Z) : P item :=
  o <- get_off ;;
  bs <- mem_slice o bytes_len ;;
  H <- ask hash ;;
  check (zlen name <? 35) parser_value_out_of_range ;;
  match encode_hex (H bs) 64 with
  | Ret s => ret (mkItem (str "Args hash") (VPaged (cstr (name ++ str "-" ++ s))))
  | Fail _ => fail parser_unexpected_error
  | Undef u => undef u
  end.

(** * Numbers *)

(** parser.c 127-142: inplace_insert_char, inside its bounds (the text is at
    most 341 characters of 400, see DESIGN.md). *)
Definition insert_at (s : list Z) (pos : nat) (c : Z) : list Z :=
  firstn pos s ++ c :: skipn pos s.

(** parser.c 144-164: add_thousands_separators, the while loop. *)
Fixpoint separators_loop (index : nat) (step : Z) (s : list Z) : list Z :=
  match index with
  | O => s
  | S i => if step mod 3 =? 0 then separators_loop i 1 (insert_at s index 32)
           else separators_loop i (step + 1) s
  end.
Definition add_thousands_separators (s : list Z) : list Z :=
  separators_loop (List.length s - 1) 1 s.

(** parser.c 166-201: number, separators and suffix, in a 400-byte array. *)
Definition motes (digits : list Z) : outcome dval :=
  let s := add_thousands_separators digits in
  if 400 <=? zlen s + 6 then Fail parser_unexpected_buffer_end
  else Ret (VPaged (s ++ str " motes")).

(** parser.c 166-186: DISPLAY_RUNTIMEARG_AMOUNT_BIGNUM; the first byte (the
    length of the integer) is skipped, all the others are the integer. *)
Definition amount_bignum (len : Z) : P dval :=
  o <- get_off ;;
  bs <- mem_slice (o + 1) (len - 1) ;;
  lift (motes (bignum_text 128 bs)).
(** parser.c 189-201: DISPLAY_RUNTIMEARG_AMOUNT_INT *)
Definition amount_int (v : Z) : P dval := lift (motes (dec v)).

(** Checks at the head of both display functions (parser.c 208-213, 236-241). *)
Definition display_pre (dataLen : Z) : P unit :=
  o <- get_off ;;
  n <- ask blen ;;
  check (u32 (o + dataLen) <? n) parser_unexpected_buffer_end ;;
  check (negb (dataLen =? 0)) parser_unexpected_error.

(** parser.c 204-231 *)
Definition display_runtimeArgMotes (t dataLen : Z) : P dval :=
  display_pre dataLen ;;
  if t =? TAG_U32 then v <- readU32 ;; amount_int v
  else if t =? TAG_U64 then v <- readU64 ;; amount_int v
  else if t =? TAG_U512 then amount_bignum dataLen
  else fail parser_unexpected_type.

(** parser.c 233-300 *)
Definition display_runtimeArg (t dataLen : Z) : P dval :=
  display_pre dataLen ;;
  if t =? TAG_U8 then v <- readU8 ;; ret (printUInt v)
  else if t =? TAG_U32 then v <- readU32 ;; ret (printUInt v)
  else if t =? TAG_U64 then v <- readU64 ;; ret (printUInt v)
  else if t =? TAG_U512 then amount_bignum dataLen
  else if t =? TAG_KEY then
    advance 1 ;; o <- get_off ;; parser_printBytes o (u16 (dataLen - 1))
  else if t =? TAG_UREF then
    o <- get_off ;; parser_printBytes o (u16 (dataLen - 1))
  else if t =? TAG_OPTION then
    opt <- readU8 ;;
    if opt =? 0 then ret (VDirect (str "Null"))
    else
      o <- get_off ;;
      it <- mem_at (o + dataLen) ;;
      if it =? TAG_U64 then v <- readU64 ;; ret (printUInt v)
      else if it =? TAG_U32 then v <- readU32 ;; ret (printUInt v)
      else if it =? TAG_UREF then
        check (2 <=? dataLen) parser_unexpected_value ;;
        parser_printBytes o (u16 (dataLen - 2))
      else fail parser_unexpected_error
  else if t =? TAG_BYTE_ARRAY then
    o <- get_off ;; parser_printBytes o (u16 dataLen)
  else if t =? TAG_PUBLIC_KEY then
    o <- get_off ;;
    k <- mem_at o ;;
    parser_printAddress o (1 + (if k =? 1 then 32 else 33))
  else fail parser_unexpected_type.

(** Lookup and display of one argument under a label: the pattern
    CHECK_PARSER_ERR(getData); return display(...) of parser_special.c and
    parser_impl_transactionV1.c. *)
Definition show_arg (key : list Z) (arg : list Z) (n : Z) : P item :=
  r <- getData arg n ;;
  v <- display_runtimeArg (snd r) (fst r) ;;
  ret (mkItem key v).
Definition show_motes (key : list Z) (arg : list Z) (n : Z) : P item :=
  r <- getData arg n ;;
  v <- display_runtimeArgMotes (snd r) (fst r) ;;
  ret (mkItem key v).

(** runtime_arg.c 105-142: showRuntimeArgByIndex.  The name is copied to
    outKey without bound, so it must fit (outKeyLen bytes); outKey is not
    terminated by the function, and the name is followed by the old content
    of outKey ("?" written by the caller when the name is shorter). *)
Definition showRuntimeArgByIndex (index n : Z) : P item :=
  start <- get_off ;;
  r <- loop n (fun i =>
    name <- copy_item_into_charbuffer 300 ;;
    if i =? index then
      nm <- lift (c_text 300 name) ;;
      k <- ask okl ;;
      key <- (if list_eqb nm (str "id") then ret (str "ID")
              else if k <? zlen nm then undef OobWrite
              else ret (match nm with c :: r => (if is_alphabetic c then to_uppercase c else c) :: r
                                  | [] => str "?" end)) ;;
      set_off start ;;
      d <- getData nm n ;;
      v <- display_runtimeArg (snd d) (fst d) ;;
      ret (Done (mkItem key v))
    else
      parse_item ;;
      get_type 0 ;;
      ret (Next (i + 1))) 0 ;;
  match r with
  | Done it => ret it
  | Next _ => fail parser_no_data
  end.

(** * parser.c 458-515: parse_TTL(value in seconds) *)
Definition ttl_part (acc : list Z) (v : Z) (unit_ : string) : list Z :=
  if 0 <? v then (match acc with [] => [] | _ => acc ++ [32] end) ++ dec v ++ str unit_ else acc.
Definition parse_TTL (value : Z) : outcome (list Z) :=
  let days := value / 86400 in
  if 28 <? days then Fail parser_unexpected_value
  else
    let acc := if days =? 1 then str "1day" else if 1 <? days then dec days ++ str "days" else [] in
    let value := value mod 86400 in
    let hours := value / 3600 in
    let value := value mod 3600 in
    let minutes := value / 60 in
    let seconds := value mod 60 in
    Ret (ttl_part (ttl_part (ttl_part acc hours "h") minutes "m") seconds "s").
