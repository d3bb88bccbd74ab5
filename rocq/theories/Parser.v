(** Entry points of the parsers: parser.c 46-112 and 517-526,
    parser_message.c, parser_wasm.c, common/tx.c 63-79. *)
From Verif Require Import Base Zxlib Crypto Utils RuntimeArg Deploy DeployUI TxV1 TxV1UI.

(** The external functions a parse depends on: blake2b_hash (crypto.c 41-49),
    printTimeSpecialFormat (zxlib), and the 16 bits next to ctx->offset. *)
Record platform := mkPlatform {
  p_hash : list Z -> list Z; p_time : Z -> option (list Z); p_hi16 : Z }.

(** The context after parser_init on [data]; parser_utils.c 17-38.  The buffer
    length is stored in 16 bits. *)
Definition ctx_of (pf : platform) (x w : bool) (kl : Z) (data : list Z) (len : Z) : env :=
  mkEnv data len (p_hi16 pf) x w kl (p_hash pf) (p_time pf).

(** transaction_content_e, parser_txdef.h *)
Definition content_Deploy := 0.
Definition content_TransactionV1 := 1.

(** The parsed object reachable from ctx->tx_obj. *)
Inductive txn := TDeploy (v : deploy) | TV1 (v : txv1).

(** parser.c 64-75: dispatch on the first byte, ctx->buffer already moved. *)
Definition parse_content (k : Z) : P txn :=
  if k =? content_Deploy then v <- parser_read_deploy ;; ret (TDeploy v)
  else if k =? content_TransactionV1 then v <- parser_read_transactionV1 ;; ret (TV1 v)
  else fail parser_context_unknown_prefix.

(** parser.c 103-112 *)
Definition getNumItems (x : bool) (t : txn) : Z :=
  match t with TDeploy v => getNumItemsDeploy x v | TV1 v => numItems v end.

(** parser.c 517-526 *)
Definition getItem (t : txn) (idx : Z) : P item :=
  match t with TDeploy v => getItemDeploy v idx | TV1 v => getItemTxV1 v idx end.

(** parser.c 93-98: the items 0 .. n-1 in order, stopping at the first error. *)
Fixpoint items_from (t : txn) (idx : Z) (n : nat) : P (list item) :=
  match n with
  | O => ret []
  | S m => i <- getItem t idx ;; r <- items_from t (idx + 1) m ;; ret (i :: r)
  end.

(** parser.c 78-101.  The items computed are returned; the C code discards
    the texts (40-byte buffers) and keeps the error code only. *)
Definition parser_validate (t : txn) : P (list item) :=
  match t with TDeploy v => validateTxDeploy v | TV1 v => validateTxV1 v end ;;
  x <- ask expert ;;
  items_from t 0 (Z.to_nat (getNumItems x t)).

(** parser.c 46-76: parser_parse.  On success, the parsed object. *)
Definition parser_parse (pf : platform) (x : bool) (data : list Z) : outcome txn :=
  let len := u16 (zlen data) in
  if len =? 0 then Fail parser_init_context_empty else
  match data with
  | [] => Undef OobRead
  | k :: rest =>
      if len =? 1 then Fail parser_unexpected_buffer_end
      else fst (parse_content k (ctx_of pf x false 40 rest (len - 1)) 0)
  end.

(** common/tx.c 63-79: tx_parse.  parser_validate starts at whatever offset
    the parser left. *)
Definition tx_parse (pf : platform) (x : bool) (data : list Z) : outcome txn :=
  let len := u16 (zlen data) in
  if len =? 0 then Fail parser_init_context_empty else
  match data with
  | [] => Undef OobRead
  | k :: rest =>
      if len =? 1 then Fail parser_unexpected_buffer_end
      else fst ((t <- parse_content k ;; parser_validate t ;; ret t)
                  (ctx_of pf x false 40 rest (len - 1)) 0)
  end.

(** common/tx.c 101-120 after a successful tx_parse: the item the review
    shows at [idx], with a key buffer of [kl] bytes.  displayIdx is int8_t: the
    indices above 127 of a long review cannot be asked for; not modelled (the
    item count of the model is the one of tx_getNumItems). *)
Definition tx_getItem (pf : platform) (x : bool) (kl : Z) (data : list Z) (t : txn) (idx : Z) : outcome item :=
  match data with
  | [] => Undef OobRead
  | _ :: rest => fst (getItem t idx (ctx_of pf x false kl rest (u16 (zlen data) - 1)) 0)
  end.

(** * Messages: parser_message.c *)
Definition messagePrefix : list Z := str "Casper Message:" ++ [10].

(** parser_message.c 26-45; [data] is the whole buffer. *)
Definition parser_parse_message (data : list Z) : outcome unit :=
  if u16 (zlen data) =? 0 then Fail parser_init_context_empty
  else if zlen data <? zlen messagePrefix then Fail parser_unexpected_buffer_end
  else if list_eqb (firstn (List.length messagePrefix) data) messagePrefix then Ret tt
  else Fail parser_context_unknown_prefix.

(** array_to_hexstr of zxlib, as used by pageStringHex: lower-case hex. *)
Definition hexstr (bs : list Z) : list Z :=
  flat_map (fun b => [nth (Z.to_nat (b / 16)) HEX_CHARS 0; nth (Z.to_nat (b mod 16)) HEX_CHARS 0]) bs.

(** parser_message.c 55-76 on the bytes of ctx->buffer *)
Definition parser_getMessageItem (pf : platform) (data : list Z) (idx : Z) : outcome item :=
  if idx =? 0 then
    match slice data 0 (u16 (zlen data)) with
    | Some m => Ret (mkItem (str "Msg hash") (VPaged (hexstr (p_hash pf m))))
    | None => Undef OobRead
    end
  else Fail parser_display_idx_out_of_range.

(** * Wasm deploys: parser_wasm.c *)

(** parser_wasm.c 24-72: the header.  The key type is read without moving the
    cursor, so the two reads that follow are positioned by index_headerpart. *)
Definition readHeader_wasm : P header_deploy :=
  pk <- mem_at 0 ;;
  check ((pk =? 1) || (pk =? 2)) parser_context_unknown_prefix ;;
  h <- read_header_counts pk ;;
  o <- get_off ;;
  n <- ask blen ;;
  check (negb (n - o <? BLAKE2B_256_SIZE)) parser_unexpected_buffer_end ;;
  set_off (header_length_deploy h + BLAKE2B_256_SIZE) ;;
  read_payment ;;
  t <- parseDeployType ;;
  r <- try (parseDeployItem_session t) ;;
  match r with
  | inr e => if (t =? ModuleBytes) && ((e =? parser_no_data) || (e =? parser_unexpected_buffer_end))
             then ret h else fail parser_unexpected_error
  | inl _ => fail parser_unexpected_error
  end.

(** parser_wasm.c 74-82; [w] is ctx->tx_content == Deploy (the content field
    keeps the value of the last INS_SIGN). *)
Definition parser_parse_wasm (pf : platform) (x w : bool) (data : list Z) : outcome header_deploy :=
  let len := u16 (zlen data) in
  if len =? 0 then Fail parser_init_context_empty
  else fst (readHeader_wasm (ctx_of pf x w 40 data len) 0).

(** parser_wasm.c 84-95 *)
Definition parser_validate_wasm (h : header_deploy) : P unit :=
  let hl := header_length_deploy h in
  H <- ask hash ;;
  hdr <- mem_slice 0 hl ;;
  dh <- mem_slice hl 32 ;;
  check (list_eqb (H hdr) dh) parser_context_mismatch.

(** parser_wasm.c 105-135 *)
Definition parser_getWasmItem (h : header_deploy) (idx : Z) : P item :=
  if idx =? 0 then
    b <- mem_slice (header_length_deploy h) 32 ;;
    ret (mkItem (str "DeployHash") (VPaged (hexstr b)))
  else if idx =? 1 then
    index_headerpart_deploy h header_bodyhash ;;
    o <- get_off ;;
    b <- mem_slice o 32 ;;
    ret (mkItem (str "BodyHash") (VPaged (hexstr b)))
  else fail parser_display_idx_out_of_range.

(** parser_utils.c 281-345 *)
Definition parser_getErrorDescription (e : Z) : list Z :=
  str (match e with
       | 0 => "No error" | 1 => "No more data" | 2 => "Initialized empty context"
       | 3 => "display_idx_out_of_range" | 4 => "display_page_out_of_range"
       | 5 => "Unexepected internal error" | 6 => "unexpected CBOR error"
       | 7 => "Unexpected CBOR EOF" | 8 => "CBOR was not in canonical order"
       | 9 => "tx version is not supported" | 10 => "Unexpected data type"
       | 11 => "Unexpected method" | 12 => "Unexpected buffer end" | 13 => "Unexpected value"
       | 14 => "Unexpected number of items" | 15 => "Unexpected number of fields"
       | 16 => "Unexpected characters" | 17 => "Unexpected field"
       | 18 => "Unexpected field offset" | 19 => "Value out of range"
       | 20 => "Invalid address format" | 21 => "context prefix is invalid"
       | 22 => "context unexpected size" | 23 => "context invalid chars"
       | 25 => "Required field nonce" | 26 => "Required field method"
       | 27 => "RuntimArg not found" | 28 => "Invalid stored contract"
       | _ => "Unrecognized error code"
       end)%string.
