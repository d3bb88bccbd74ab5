(** The application around the parsers: apdu_handler.c, common/tx.c,
    common/actions.h, addr.c, crypto.c 94-156 and 213-239. *)
From Verif Require Import Base Zxlib Crypto Utils RuntimeArg Deploy DeployUI TxV1 TxV1UI Parser.

(** * Platform and device *)
(** [ram_size], [flash_size]: common/tx.c 26-32.  [pubkey path]: external,
    crypto_extractPublicKey (crypto.c 51-78), 33 bytes or failure.
    [bip32_text]: external, bip32_to_str of zxlib.  [version_bytes]: the nine
    bytes of apdu_handler.c 190-203 (build constants).  [junk_*]: what a failed
    parse leaves in the global parse objects; the model does not follow partial
    writes of a failing parse and takes these values from an arbitrary
    function instead, so every theorem holds for any of them. *)
Record device := mkDevice {
  plat : platform; ram_size : Z; flash_size : Z;
  pubkey : list Z -> option (list Z); bip32_text : list Z -> list Z;
  version_bytes : list Z;
  junk_header : list Z -> header_deploy; junk_hashpos : list Z -> Z }.

(** APDU status words, apdu_codes.h of zxlib *)
Definition EXECUTION_ERROR := 0x6400.       Definition WRONG_LENGTH := 0x6700.
Definition OUTPUT_BUFFER_TOO_SMALL := 0x6983. Definition DATA_INVALID := 0x6984.
Definition COMMAND_NOT_ALLOWED := 0x6986.   Definition TX_NOT_INITIALIZED := 0x6987.
Definition INVALIDP1P2 := 0x6B00.           Definition INS_NOT_SUPPORTED := 0x6D00.
Definition CLA_NOT_SUPPORTED := 0x6E00.     Definition SIGN_VERIFY_ERROR := 0x6F01.
Definition SW_OK := 0x9000.

(** parser_txdef.h: transaction_type_e of parser_tx_deploy_t *)
Definition type_Transaction := 0. Definition type_Message := 1. Definition type_WasmDeploy := 2.

(** * State *)
(** buffering.c of zxlib: two arrays of fixed size, a write position in each,
    and which of them is in use. *)
Record buffers := mkBuf { ram : list Z; flash : list Z; in_ram : bool; rpos : Z; fpos : Z }.

(** parser_context_t ctx_parsed_tx (common/tx.c 47).  [cbuf]: None is NULL,
    Some (r, d) the ram (r) or flash array plus d.  [cobj_v1]: which object
    ctx->tx_obj points to. *)
Record pctx := mkCtx { cbuf : option (bool * Z); clen : Z; ccontent : Z; cobj_v1 : bool }.

(** What is on the screen waiting for the user. *)
Inductive review := RTx (t : txn) | RMsg | RWasm | RAddr.

(** The globals: apdu_handler.c 34-36 (wasm_counter only feeds a progress
    screen and is left out), hdPath (crypto.c), the buffers, ctx_parsed_tx,
    the deploy parse object (type and header: the fields read outside the
    parser), the TxV1 parse object (metadata_size + field_offsets[0], the only
    part read outside the parser), the public key and address left in
    G_io_apdu_buffer by INS_GET_ADDR, app_mode_expert(). *)
Record app := mkApp {
  tx_initialized : bool; tx_bufferFull : bool; hdPath : list Z; bufs : buffers;
  ctx : pctx; obj_type : Z; obj_header : header_deploy; obj_v1 : Z;
  answer : list Z; expert_mode : bool; pending : option review }.

Definition set_init b s := mkApp b (tx_bufferFull s) (hdPath s) (bufs s) (ctx s) (obj_type s) (obj_header s) (obj_v1 s) (answer s) (expert_mode s) (pending s).
Definition set_full b s := mkApp (tx_initialized s) b (hdPath s) (bufs s) (ctx s) (obj_type s) (obj_header s) (obj_v1 s) (answer s) (expert_mode s) (pending s).
Definition set_path p s := mkApp (tx_initialized s) (tx_bufferFull s) p (bufs s) (ctx s) (obj_type s) (obj_header s) (obj_v1 s) (answer s) (expert_mode s) (pending s).
Definition set_bufs b s := mkApp (tx_initialized s) (tx_bufferFull s) (hdPath s) b (ctx s) (obj_type s) (obj_header s) (obj_v1 s) (answer s) (expert_mode s) (pending s).
Definition set_ctx c s := mkApp (tx_initialized s) (tx_bufferFull s) (hdPath s) (bufs s) c (obj_type s) (obj_header s) (obj_v1 s) (answer s) (expert_mode s) (pending s).
Definition set_deploy t h s := mkApp (tx_initialized s) (tx_bufferFull s) (hdPath s) (bufs s) (ctx s) t h (obj_v1 s) (answer s) (expert_mode s) (pending s).
Definition set_v1 p s := mkApp (tx_initialized s) (tx_bufferFull s) (hdPath s) (bufs s) (ctx s) (obj_type s) (obj_header s) p (answer s) (expert_mode s) (pending s).
Definition set_answer a s := mkApp (tx_initialized s) (tx_bufferFull s) (hdPath s) (bufs s) (ctx s) (obj_type s) (obj_header s) (obj_v1 s) a (expert_mode s) (pending s).
Definition set_expert x s := mkApp (tx_initialized s) (tx_bufferFull s) (hdPath s) (bufs s) (ctx s) (obj_type s) (obj_header s) (obj_v1 s) (answer s) x (pending s).
Definition set_pending r s := mkApp (tx_initialized s) (tx_bufferFull s) (hdPath s) (bufs s) (ctx s) (obj_type s) (obj_header s) (obj_v1 s) (answer s) (expert_mode s) r.

Definition zeros (n : Z) : list Z := repeat 0 (Z.to_nat n).

(** Power-on state: C statics are zero. *)
Definition boot (d : device) : app :=
  mkApp false false (zeros 5)
        (mkBuf (zeros (ram_size d)) (zeros (flash_size d)) true 0 0)
        (mkCtx None 0 content_Deploy false) type_Transaction (mkHeader 0 0 0) 0
        (zeros 101) false None.

(** * zxlib buffering (contract; not in /repo) *)
Definition overwrite (a : list Z) (pos : Z) (bs : list Z) : list Z :=
  firstn (Z.to_nat pos) a ++ bs ++ skipn (Z.to_nat pos + List.length bs) a.

(** buffering_init then buffering_reset: common/tx.c 51-53 *)
Definition buf_reset (b : buffers) : buffers := mkBuf (ram b) (flash b) true 0 0.

(** buffering_append to the flash area: all the bytes or none. *)
Definition flash_append (fs : Z) (b : buffers) (bs : list Z) : buffers * Z :=
  if fpos b + zlen bs <=? fs
  then (mkBuf (ram b) (overwrite (flash b) (fpos b) bs) (in_ram b) (rpos b) (fpos b + zlen bs), zlen bs)
  else (b, 0).

(** buffering_append: to ram while it fits, then the ram content is moved to
    flash and flash is used from there on.  Second component: bytes added. *)
Definition buf_append (rs fs : Z) (b : buffers) (bs : list Z) : buffers * Z :=
  if in_ram b then
    if rpos b + zlen bs <=? rs
    then (mkBuf (overwrite (ram b) (rpos b) bs) (flash b) true (rpos b + zlen bs) (fpos b), zlen bs)
    else
      let b1 := mkBuf (ram b) (flash b) false (rpos b) (fpos b) in
      let b2 := if 0 <? rpos b then fst (flash_append fs b1 (firstn (Z.to_nat (rpos b)) (ram b))) else b1 in
      let '(b3, n) := flash_append fs b2 bs in
      (mkBuf (ram b3) (flash b3) false 0 (fpos b3), n)
  else flash_append fs b bs.

(** tx_get_buffer / tx_get_buffer_length: common/tx.c 59-61 *)
Definition tx_data (b : buffers) : list Z :=
  if in_ram b then firstn (Z.to_nat (rpos b)) (ram b) else firstn (Z.to_nat (fpos b)) (flash b).

(** The bytes a context refers to, in the arrays as they are now. *)
Definition ctx_data (b : buffers) (c : pctx) : option (list Z) :=
  match cbuf c with
  | None => None
  | Some (r, d) => slice (if r then ram b else flash b) d (clen c)
  end.

(** * Replies *)
(** [Signed path pre]: 65 bytes plus DER of the ECDSA signature, by the key
    derived from [path], of SHA-256([pre]); crypto.c 94-156.  ECDSA and SHA-256
    are not modelled further. [NoReply]: the answer will be sent later
    (IO_ASYNCH_REPLY) or there was nothing to answer. *)
Inductive reply := Status (data : list Z) (sw : Z) | Signed (path : list Z) (pre : list Z) | NoReply.

(** [Apdu bs pin]: rx bytes received, and whether the PIN is validated.
    [Approve ok]: the user approves; [ok] is false when a cx_ / os_ primitive
    of crypto_sign fails.  [Expert x]: the user sets the expert-mode menu
    entry. *)
Inductive event := Apdu (bs : list Z) (pin : bool) | Approve (ok : bool) | Reject | Expert (x : bool).

(** Result of a handler that may THROW: new state and reply. *)
Definition result := outcome (app * reply).
Definition throw (sw : Z) (s : app) : result := Ret (s, Status [] sw).

Definition u32_le (bs : list Z) : Z := le_val (firstn 4 bs).
Fixpoint words (n : nat) (bs : list Z) : list Z :=
  match n with O => [] | S m => u32_le bs :: words m (skipn 4 bs) end.

Definition HDPATH_0 := 0x8000002c.
Definition HDPATH_1 := 0x800001fa.
Definition path_ok (p : list Z) : bool := (nth 0 p 0 =? HDPATH_0) && (nth 1 p 0 =? HDPATH_1).

(** apdu_handler.c 38-52; the mainnet and testnet constants of coin.h 29-36
    are equal.  [inl]: the path is accepted; [inr]: the thrown code.  hdPath is
    written before the check. *)
Definition extractHDPath (bs : list Z) (s : app) : app * option Z :=
  let data := skipn 5 bs in
  if zlen data <? 20 then (s, Some WRONG_LENGTH)
  else
    let p := words 5 data in
    (set_path p s, if path_ok p then None else Some DATA_INVALID).

Definition P1_of (bs : list Z) := nth 2 bs 0.
Definition P2_of (bs : list Z) := nth 3 bs 0.
Definition data_of (bs : list Z) := skipn 5 bs.

Inductive chunk := More (s : app) | LastChunk (s : app) | Threw (sw : Z) (s : app).

Definition append_chunk (d : device) (s : app) (bs : list Z) : app * bool :=
  let '(b, n) := buf_append (ram_size d) (flash_size d) (bufs s) (data_of bs) in
  (set_bufs b s, n =? zlen (data_of bs)).

(** apdu_handler.c 61-75, P1_INIT of both chunk functions *)
Definition chunk_init (bs : list Z) (s : app) : app * option Z :=
  extractHDPath bs (set_bufs (buf_reset (bufs s)) s).

(** apdu_handler.c 54-98 *)
Definition process_chunk (d : device) (bs : list Z) (s : app) : chunk :=
  if negb (P2_of bs =? 0) then Threw INVALIDP1P2 s
  else if P1_of bs =? 0 then
    match chunk_init bs s with
    | (s', None) => More (set_init true s')
    | (s', Some e) => Threw e s'
    end
  else if (P1_of bs =? 1) || (P1_of bs =? 2) then
    if negb (tx_initialized s) then Threw TX_NOT_INITIALIZED s
    else
      let '(s', fits) := append_chunk d s bs in
      if fits then if P1_of bs =? 1 then More s' else LastChunk s'
      else Threw OUTPUT_BUFFER_TOO_SMALL (set_init false s')
  else Threw INVALIDP1P2 (set_init false s).

(** * Parses, with their effect on the globals *)

Definition here (s : app) (delta len : Z) (v1 : bool) (content : Z) : pctx :=
  mkCtx (Some (in_ram (bufs s), delta)) len content v1.

(** parser.c 46-76 through common/tx.c 63-79: state after the attempt. *)
Definition tx_parse_effect (d : device) (s : app) : app :=
  let data := tx_data (bufs s) in
  let c := ctx s in
  match data with
  | [] => set_ctx (mkCtx None 0 (ccontent c) (cobj_v1 c)) s
  | k :: rest =>
      let v1 := if k =? content_TransactionV1 then true else if k =? content_Deploy then false else cobj_v1 c in
      let v1 := match rest with [] => cobj_v1 c | _ => v1 end in
      let s1 := set_ctx (here s 1 (u16 (zlen data) - 1) v1 k) s in
      match parser_parse (plat d) (expert_mode s) data with
      | Ret (TDeploy v) => set_deploy type_Transaction (dheader v) s1
      | Ret (TV1 v) => set_v1 (metadata_size (tmeta v) + foff (tmeta v) 0) s1
      | _ =>
          match rest with
          | [] => s1
          | _ => if k =? content_Deploy then set_deploy type_Transaction (junk_header d data) s1
                 else if k =? content_TransactionV1 then set_v1 (junk_hashpos d data) s1
                 else s1
          end
      end
  end.

(** parser_message.c 26-45: the deploy object is cleared, tx_content is not
    touched. *)
Definition tx_parse_message_effect (s : app) : app :=
  let data := tx_data (bufs s) in
  let c := ctx s in
  match data with
  | [] => set_ctx (mkCtx None 0 (ccontent c) (cobj_v1 c)) s
  | _ =>
      let s1 := set_ctx (here s 0 (u16 (zlen data)) false (ccontent c)) s in
      set_deploy (match parser_parse_message data with Ret _ => type_Message | _ => type_Transaction end)
                 (mkHeader 0 0 0) s1
  end.

(** parser_wasm.c 74-82 *)
Definition tx_parse_wasm (d : device) (s : app) : outcome header_deploy :=
  parser_parse_wasm (plat d) (expert_mode s) (ccontent (ctx s) =? content_Deploy) (tx_data (bufs s)).
Definition tx_parse_wasm_effect (d : device) (s : app) : app :=
  let data := tx_data (bufs s) in
  let c := ctx s in
  match data with
  | [] => set_ctx (mkCtx None 0 (ccontent c) (cobj_v1 c)) s
  | _ =>
      let s1 := set_ctx (here s 0 (u16 (zlen data)) false (ccontent c)) s in
      set_deploy type_WasmDeploy
        (match tx_parse_wasm d s with Ret h => h | _ => junk_header d data end) s1
  end.

(** common/tx.c 152-155: validation of whatever the context refers to.  When
    ctx->tx_obj is the TxV1 object it is read through the wrong type: an
    arbitrary header. *)
Definition wasm_header (d : device) (s : app) : header_deploy :=
  if cobj_v1 (ctx s) then junk_header d [] else obj_header s.
Definition wasm_run {A} (d : device) (s : app) (p : P A) : outcome A :=
  match ctx_data (bufs s) (ctx s) with
  | None => Undef OobRead
  | Some m => fst (p (ctx_of (plat d) (expert_mode s) true 40 m (clen (ctx s))) 0)
  end.
Definition tx_validate_wasm (d : device) (s : app) : outcome unit :=
  wasm_run d s (parser_validate_wasm (wasm_header d s)).

(** apdu_handler.c 115-151: chunk handling shared by ADD and LAST *)
Definition wasm_append (d : device) (bs : list Z) (s : app) : outcome (app + app) :=
  let '(s', fits) := append_chunk d s bs in
  if negb (tx_bufferFull s') && negb fits then
    match tx_parse_wasm d s' with
    | Ret _ => Ret (inl (set_full true (tx_parse_wasm_effect d s')))
    | Fail _ => Ret (inr (set_init false (tx_parse_wasm_effect d s')))
    | Undef u => Undef u
    end
  else Ret (inl s').

(** apdu_handler.c 100-154 *)
Definition process_wasm_chunk (d : device) (bs : list Z) (s : app) : outcome chunk :=
  if negb (P2_of bs =? 0) then Ret (Threw INVALIDP1P2 s)
  else if P1_of bs =? 0 then
    Ret (match chunk_init bs s with
         | (s', None) => More (set_full false (set_init true s'))
         | (s', Some e) => Threw e s'
         end)
  else if (P1_of bs =? 1) || (P1_of bs =? 2) then
    if negb (tx_initialized s) then Ret (Threw TX_NOT_INITIALIZED s)
    else
      match wasm_append d bs s with
      | Ret (inl s') => Ret (if P1_of bs =? 1 then More s' else LastChunk s')
      | Ret (inr s') => Ret (Threw EXECUTION_ERROR s')
      | Fail e => Fail e
      | Undef u => Undef u
      end
  else Ret (Threw INVALIDP1P2 (set_init false s)).

(** * Instruction handlers *)

(** apdu_handler.c 156-186 *)
Definition handleSignWasm (d : device) (bs : list Z) (s : app) : result :=
  match process_wasm_chunk d bs s with
  | Ret (Threw e s') => throw e s'
  | Ret (More s') => throw SW_OK s'
  | Ret (LastChunk s') =>
      let s1 := set_init false s' in
      let parse := if tx_bufferFull s1 then Ret (s1, true)
                   else match tx_parse_wasm d s1 with
                        | Ret _ => Ret (tx_parse_wasm_effect d s1, true)
                        | Fail _ => Ret (tx_parse_wasm_effect d s1, false)
                        | Undef u => Undef u
                        end in
      match parse with
      | Ret (s2, false) => throw EXECUTION_ERROR s2
      | Ret (s2, true) =>
          match tx_validate_wasm d s2 with
          | Ret _ => Ret (set_pending (Some RWasm) s2, NoReply)
          | Fail _ => throw EXECUTION_ERROR s2
          | Undef u => Undef u
          end
      | Fail e => Fail e
      | Undef u => Undef u
      end
  | Fail e => Fail e
  | Undef u => Undef u
  end.

(** crypto.c 213-239 with common/actions.h 60-72: the 101 bytes of the answer *)
Definition fill_address (d : device) (path : list Z) : outcome (list Z) :=
  match pubkey d path with
  | None => Fail EXECUTION_ERROR
  | Some pk =>
      match encode_addr (p_hash (plat d)) 68 (2 :: pk) with
      | Ret (a, true) => Ret (pk ++ a)
      | Ret (_, false) => Fail EXECUTION_ERROR
      | Fail e => Fail EXECUTION_ERROR
      | Undef u => Undef u
      end
  end.

(** apdu_handler.c 209-227 *)
Definition handleGetAddr (d : device) (bs : list Z) (s : app) : result :=
  match extractHDPath bs s with
  | (s1, Some e) => throw e s1
  | (s1, None) =>
      match fill_address d (hdPath s1) with
      | Ret a =>
          let s2 := set_answer a s1 in
          if P1_of bs =? 0 then Ret (s2, Status a SW_OK)
          else Ret (set_pending (Some RAddr) s2, NoReply)
      | Fail e => throw e (set_answer (zeros 101) s1)
      | Undef u => Undef u
      end
  end.

(** apdu_handler.c 229-251 *)
Definition handleSign (d : device) (bs : list Z) (s : app) : result :=
  match process_chunk d bs s with
  | Threw e s' => throw e s'
  | More s' => throw SW_OK s'
  | LastChunk s' =>
      let s1 := set_init false s' in
      let s2 := tx_parse_effect d s1 in
      match tx_parse (plat d) (expert_mode s1) (tx_data (bufs s1)) with
      | Ret t => Ret (set_pending (Some (RTx t)) s2, NoReply)
      | Fail e => Ret (s2, Status (parser_getErrorDescription e) DATA_INVALID)
      | Undef u => Undef u
      end
  end.

(** apdu_handler.c 253-274 *)
Definition handleSignMessage (d : device) (bs : list Z) (s : app) : result :=
  match process_chunk d bs s with
  | Threw e s' => throw e s'
  | More s' => throw SW_OK s'
  | LastChunk s' =>
      let s2 := tx_parse_message_effect s' in
      match parser_parse_message (tx_data (bufs s')) with
      | Ret _ => Ret (set_pending (Some RMsg) s2, NoReply)
      | Fail e => Ret (s2, Status (parser_getErrorDescription e) DATA_INVALID)
      | Undef u => Undef u
      end
  end.

Definition INS_GET_VERSION := 0. Definition INS_GET_ADDR := 1. Definition INS_SIGN := 2.
Definition INS_SIGN_MSG := 3.    Definition INS_SIGN_WASM := 4.

(** apdu_handler.c 276-341.  The class byte is read before the length is
    checked; for rx = 0 it is a leftover byte, taken as 0 here (both answers
    are errors). *)
Definition handleApdu (d : device) (bs : list Z) (pin : bool) (s : app) : result :=
  if negb (nth 0 bs 0 =? 0x11) then throw CLA_NOT_SUPPORTED s
  else if zlen bs <? 5 then throw WRONG_LENGTH s
  else
    let ins := nth 1 bs 0 in
    if ins =? INS_GET_VERSION then Ret (s, Status (version_bytes d) SW_OK)
    else if (ins =? INS_GET_ADDR) || (ins =? INS_SIGN) || (ins =? INS_SIGN_MSG) || (ins =? INS_SIGN_WASM) then
      if negb pin then throw COMMAND_NOT_ALLOWED s
      else if ins =? INS_GET_ADDR then handleGetAddr d bs s
      else if ins =? INS_SIGN then handleSign d bs s
      else if ins =? INS_SIGN_MSG then handleSignMessage d bs s
      else handleSignWasm d bs s
    else throw INS_NOT_SUPPORTED s.

(** crypto.c 94-120: the bytes given to SHA-256; [msg] as passed by app_sign.
    Reads past [msg] (still inside the 8192/16384-byte array) are [Undef]. *)
Definition sign_preimage (s : app) (msg : list Z) : outcome (list Z) :=
  let at_pos o := match slice msg o 32 with Some b => Ret b | None => Undef OobRead end in
  if ccontent (ctx s) =? content_Deploy then
    if (obj_type s =? type_WasmDeploy) || (obj_type s =? type_Transaction)
    then at_pos (header_length_deploy (obj_header s))
    else if obj_type s =? type_Message then Ret msg
    else Fail SIGN_VERIFY_ERROR
  else at_pos (obj_v1 s).

(** common/actions.h 31-53.  messageLength is uint16_t; the buffers are
    smaller than 65536 bytes. *)
Definition app_sign (d : device) (s : app) : outcome reply :=
  let data := tx_data (bufs s) in
  let content := ccontent (ctx s) in
  let msg :=
    if ((content =? content_Deploy) && (obj_type s =? type_Transaction)) || (content =? content_TransactionV1)
    then match data with [] => None | _ :: r => Some r end
    else Some data in
  match msg with
  | None => Undef OobRead
  | Some m =>
      match sign_preimage s m with
      | Ret pre => Ret (Signed (hdPath s) pre)
      | Fail e => Ret (Status [] SIGN_VERIFY_ERROR)
      | Undef u => Undef u
      end
  end.

(** * Reviews *)

(** addr.c 33-64 on the 33 bytes left in G_io_apdu_buffer *)
Definition addr_getItem (d : device) (s : app) (idx : Z) : outcome item :=
  match encode_addr (p_hash (plat d)) 100 (2 :: firstn 33 (answer s)) with
  | Ret (a, _) =>
      if idx =? 0 then Ret (mkItem (str "Address") (VPaged a))
      else if (idx =? 1) && expert_mode s then Ret (mkItem (str "Path") (VPaged (bip32_text d (hdPath s))))
      else Fail parser_no_data
  | Fail e => Fail e
  | Undef u => Undef u
  end.

(** Number of items of the review on screen: common/tx.c 91-99, 122-131,
    157-166, addr.c 25-31 *)
Definition review_count (s : app) (r : review) : Z :=
  match r with
  | RTx t => getNumItems (expert_mode s) t
  | RMsg => 1
  | RWasm => 2
  | RAddr => if expert_mode s then 2 else 1
  end.

(** Item [idx] of the review on screen, key buffer of [kl] bytes: common/tx.c
    101-120, 133-150, 168-185, addr.c 33-64 *)
Definition review_item (d : device) (s : app) (r : review) (kl idx : Z) : outcome item :=
  match r with
  | RTx t => tx_getItem (plat d) (expert_mode s) kl (tx_data (bufs s)) t idx
  | RMsg => match ctx_data (bufs s) (ctx s) with
            | Some m => parser_getMessageItem (plat d) m idx
            | None => Undef OobRead
            end
  | RWasm => wasm_run d s (parser_getWasmItem (wasm_header d s) idx)
  | RAddr => addr_getItem d s idx
  end.

(** * Executions *)
(** While a review is on screen the app waits for the user: further APDUs are
    not dispatched and the menu is not reachable (IO_ASYNCH_REPLY and the
    zxlib view; assumption on the platform). *)
Definition step (d : device) (s : app) (e : event) : result :=
  match pending s, e with
  | Some _, Apdu _ _ => Ret (s, NoReply)
  | Some _, Expert _ => Ret (s, NoReply)
  | Some r, Approve ok =>
      let s' := set_pending None s in
      match r with
      | RAddr => Ret (s', Status (answer s) SW_OK)       (* actions.h 74-77 *)
      | _ =>
          if ok then match app_sign d s with
                     | Ret rp => Ret (s', rp)
                     | Fail x => Fail x
                     | Undef u => Undef u
                     end
          else Ret (s', Status [] SIGN_VERIFY_ERROR)
      end
  | Some _, Reject => Ret (set_pending None s, Status [] COMMAND_NOT_ALLOWED)  (* actions.h 55-58 *)
  | None, Apdu bs pin => handleApdu d bs pin s
  | None, Expert x => Ret (set_expert x s, NoReply)
  | None, _ => Ret (s, NoReply)
  end.

(** A history: each event with the state before it and the reply. *)
Fixpoint run (d : device) (s : app) (es : list event) : outcome (app * list (event * app * reply)) :=
  match es with
  | [] => Ret (s, [])
  | e :: r =>
      match step d s e with
      | Ret (s', rp) =>
          match run d s' r with
          | Ret (s'', tr) => Ret (s'', (e, s, rp) :: tr)
          | Fail x => Fail x
          | Undef u => Undef u
          end
      | Fail x => Fail x
      | Undef u => Undef u
      end
  end.
