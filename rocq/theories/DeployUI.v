(** Review screens of Deploy transactions: parser_impl_deploy.c 327-466 and
    the display half of parser_special.c. *)
From Verif Require Import Base Zxlib Crypto Utils RuntimeArg Deploy.

(** The content of outKey / outVal when a display function returns parser_ok
    without writing them: _getItemDeploy / _getItemTxV1 store "?" first. *)
Definition question : item := mkItem (str "?") (VDirect (str "?")).

(** Moving to the end of [n] arguments and hashing from [start]:
    parser_special.c 85-97, 277-289, 537-549. *)
Definition args_hash (start n : Z) (name : list Z) : P item :=
  parseRuntimeArgs n ;;
  e <- get_off ;;
  set_off start ;;
  it <- showRuntimeArgsHash (u32 (e - start)) name ;;
  set_off e ;;
  ret it.

(** parser_special.c 58-153 *)
Definition getItem_NativeTransfer (i : ditem) (idx : Z) : P item :=
  advance 1 ;;
  start <- get_off ;;
  n <- readU32 ;;
  check (UI_runtime_items i <=? n) parser_unexpected_number_items ;;
  let new := u8 (idx - UI_fixed_items i) in
  check ((new <? UI_runtime_items i) && (UI_fixed_items i <=? idx)) parser_unexpected_number_items ;;
  if dgeneric i then
    if new =? 0 then args_hash start (UI_runtime_items i) (str "native-transfer")
    else fail parser_no_data
  else if negb ((n =? 3) || (n =? 4)) then showRuntimeArgByIndex new (UI_runtime_items i)
  else
    x <- ask expert ;;
    if negb x then
      if new =? 0 then show_arg (str "Target") (str "target") n
      else if new =? 1 then show_motes (str "Amount") (str "amount") n
      else fail parser_no_data
    else if (new =? 0) && (UI_runtime_items i =? 4) then show_arg (str "From") (str "source") n
    else
      let new := if UI_runtime_items i =? 4 then u8 (new - 1) else new in
      if new =? 0 then show_arg (str "Target") (str "target") n
      else if new =? 1 then show_motes (str "Amount") (str "amount") n
      else if new =? 2 then show_arg (str "ID") (str "id") n
      else fail parser_no_data.

(** parser_special.c 253-294 *)
Definition getItem_SystemPayment (i : ditem) (idx : Z) : P item :=
  advance 1 ;;
  len <- readU32 ;;
  o <- get_off ;;
  bl <- ask blen ;;
  check (len <=? bl - o) parser_unexpected_buffer_end ;;
  advance len ;;
  start <- get_off ;;
  n <- readU32 ;;
  let new := u8 (idx - UI_fixed_items i) in
  check ((new <=? UI_runtime_items i) && (UI_fixed_items i <=? idx)) parser_no_data ;;
  if new =? 0 then
    if negb (dgeneric i) then show_motes (str "Fee") (str "amount") (UI_runtime_items i)
    else args_hash start n (str "payment")
  else fail parser_no_data.

(** parser_special.c 296-311 *)
Definition render_entry_point (ep : Z) : P item :=
  prev <- get_off ;;
  set_off ep ;;
  bs <- copy_item_into_charbuffer 100 ;;
  set_off prev ;;
  s <- lift (c_text 100 bs) ;;
  ret (mkItem (str "Entry-point") (VPaged s)).

(** parser_special.c 327-341 (and 348-362): "Cntrct hash" *)
Definition render_contract_hash : P item :=
  len <- readU32 ;;
  o <- get_off ;;
  bs <- mem_slice o len ;;
  require (len <=? 32) OobWrite ;;   (* MEMCPY into uint8_t hash[32] *)
  H <- ask hash ;;
  v <- lift (printBytes H (H bs)) ;;
  ret (mkItem (str "Cntrct hash") v).

Definition execution (kind : string) : item := mkItem (str "Execution") (VDirect (str kind)).

(** parser_special.c 374-376, 393-395: the 32 bytes at the cursor *)
Definition render_address : P item :=
  o <- get_off ;;
  v <- parser_printBytes o 32 ;;
  ret (mkItem (str "Address") v).

(** parser_special.c 425-429, 449-453 *)
Definition render_name : P item :=
  bs <- copy_item_into_charbuffer 300 ;;
  s <- lift (c_text 300 bs) ;;
  ret (mkItem (str "Name") (VPaged s)).

(** parser_special.c 313-479 *)
Definition render_fixed_delegation_items (i : ditem) (ep idx : Z) : P item :=
  let hasAmount := UI_fixed_items i =? 3 in
  x <- ask expert ;;
  let show := x || negb hasAmount in
  if dtype i =? ModuleBytes then
    let show := x || (dspecial i =? Generic) in
    if (idx =? 0) && show then ret (execution "contract")
    else if (idx =? 1) && show then render_contract_hash
    else parse_item ;; ret question
  else if dtype i =? StoredContractByHash then
    if (idx =? 0) && show then ret (execution "by-hash")
    else if (idx =? 1) && show then render_address
    else
      advance 32 ;;
      parse_item ;;
      if (idx =? 2) && x then render_entry_point ep else ret question
  else if dtype i =? StoredVersionedContractByHash then
    if (idx =? 0) && show then ret (execution "by-hash-versioned")
    else if (idx =? 1) && show then render_address
    else
      advance 32 ;;
      v <- parse_version ;;
      if (idx =? 2) && x then ret (mkItem (str "Version") (printUInt v))
      else
        parse_item ;;
        if (idx =? 3) && x then render_entry_point ep else ret question
  else if dtype i =? StoredContractByName then
    if (idx =? 0) && show then ret (execution "by-name")
    else if (idx =? 1) && show then render_name
    else
      parse_item ;;
      parse_item ;;
      if (idx =? 2) && x then render_entry_point ep else ret question
  else if dtype i =? StoredVersionedContractByName then
    if (idx =? 0) && show then ret (execution "by-name-versioned")
    else if (idx =? 1) && show then render_name
    else
      parse_item ;;
      v <- parse_version ;;
      if (idx =? 2) && x then ret (mkItem (str "Version") (printUInt v))
      else
        parse_item ;;
        if (idx =? 3) && x then render_entry_point ep else ret question
  else fail parser_unexpected_type.

(** parser_special.c 481-591 *)
Definition getItem_Delegation (i : ditem) (ep idx : Z) : P item :=
  advance 1 ;;
  if idx <? UI_fixed_items i then render_fixed_delegation_items i ep idx
  else
    set_off (itemOffset i) ;;
    let new := u8 (idx - UI_fixed_items i) in
    check ((new <=? UI_runtime_items i) && (UI_fixed_items i <=? idx)) parser_no_data ;;
    let m := UI_runtime_items i in
    if dgeneric i then
      n <- readU32 ;;
      if (new =? 0) && (m =? 2) then show_motes (str "Amount") (str "amount") n
      else
        let new := if (new =? 1) && (m =? 2) then 0 else new in
        if new =? 0 then args_hash (itemOffset i) n (str "execution")
        else fail parser_no_data
    else
      (if dtype i =? ModuleBytes then ret 0 else readU32) ;;
      if new =? 0 then show_arg (str "Delegator") (str "delegator") m
      else if dspecial i =? ReDelegate then
        if new =? 1 then show_arg (str "Old") (str "validator") m
        else if new =? 2 then show_arg (str "New") (str "new_validator") m
        else if new =? 3 then show_motes (str "Amount") (str "amount") m
        else fail parser_no_data
      else
        if new =? 1 then show_arg (str "Validator") (str "validator") m
        else if new =? 2 then show_motes (str "Amount") (str "amount") m
        else fail parser_no_data.

(** parser_impl_deploy.c 327-332 *)
Definition getNumItemsDeploy (x : bool) (v : deploy) : Z :=
  u8 ((if x then 9 else 4) + UI_fixed_items (payment v) + UI_runtime_items (payment v)
      + UI_fixed_items (session v) + UI_runtime_items (session v)).

(** parser_impl_deploy.c 358-371: the value of "Type" *)
Definition deploy_type_text (v : deploy) : string :=
  let s := session v in
  if (dspecial (payment v) =? SystemPayment) && (dtype s =? Transfer) then "Token transfer"
  else if (dspecial s =? Delegate) && negb (dgeneric s) then "Delegate"
  else if (dspecial s =? UnDelegate) && negb (dgeneric s) then "Undelegate"
  else if (dspecial s =? ReDelegate) && negb (dgeneric s) then "Redelegate"
  else "Contract execution".

(** parser_utils.h 72-85: DISPLAY_HEADER_TIMESTAMP once the cursor is set *)
Definition show_timestamp : P item :=
  v <- readU64 ;;
  f <- ask timefmt ;;
  match f (v / 1000) with
  | Some s => ret (mkItem (str "Timestamp") (VPaged s))
  | None => fail parser_unexpected_error
  end.

(** parser_impl_deploy.c 392-402: Ttl once the cursor is set *)
Definition show_ttl : P item :=
  v <- readU64 ;;
  s <- lift (parse_TTL (v / 1000)) ;;
  ret (mkItem (str "Ttl") (VPaged s)).

(** parser_impl_deploy.c 334-466; idx is a uint8_t. *)
Definition getItemDeploy (v : deploy) (idx : Z) : P item :=
  x <- ask expert ;;
  let num := getNumItemsDeploy x v in
  let h := dheader v in
  let hl := header_length_deploy h in
  check (idx <? num) parser_no_data ;;
  if idx =? 0 then
    set_off hl ;;
    o <- get_off ;;
    d <- parser_printBytes o 32 ;;
    ret (mkItem (str "Txn hash") d)
  else if idx =? 1 then ret (mkItem (str "Type") (VDirect (str (deploy_type_text v))))
  else if idx =? 2 then
    index_headerpart_deploy h header_chainname ;;
    o <- get_off ;;
    DISPLAY_STRING (str "Chain ID") (4 + o) (lenChainName h)
  else if idx =? 3 then
    index_headerpart_deploy h header_pubkey ;;
    o <- get_off ;;
    d <- parser_printAddress o (pubkeyLen h) ;;
    ret (mkItem (str "Account") d)
  else if (x : bool) && (idx =? 4) then index_headerpart_deploy h header_timestamp ;; show_timestamp
  else if (x : bool) && (idx =? 5) then index_headerpart_deploy h header_ttl ;; show_ttl
  else if (x : bool) && (idx =? 6) then
    index_headerpart_deploy h header_gasprice ;;
    g <- readU64 ;;
    ret (mkItem (str "Gas price") (printUInt g))
  else if (x : bool) && (idx =? 7) then
    index_headerpart_deploy h header_deps ;;
    n <- readU32 ;;
    ret (mkItem (str "Deps #") (printUInt n))
  else
    let new := u8 (idx - (if x : bool then 8 else 4)) in
    set_off (hl + 32) ;;
    let np := u16 (UI_fixed_items (payment v) + UI_runtime_items (payment v)) in
    if new <? np then
      if dspecial (payment v) =? SystemPayment then getItem_SystemPayment (payment v) new
      else fail parser_unexpected_type
    else
      let new := u8 (new - np) in
      advance (totalLength (payment v)) ;;
      let ns := u16 (UI_fixed_items (session v) + UI_runtime_items (session v)) in
      if new <? ns then
        let sp := dspecial (session v) in
        if sp =? NativeTransfer then getItem_NativeTransfer (session v) new
        else if (sp =? Delegate) || (sp =? UnDelegate) || (sp =? ReDelegate) || (sp =? Generic) then
          getItem_Delegation (session v) (entry_point_offset v) new
        else fail parser_unexpected_type
      else
        advance (totalLength (session v)) ;;
        if (idx =? num - 1) && (x : bool) then
          n <- readU32 ;;
          ret (mkItem (str "Approvals #") (printUInt n))
        else fail parser_no_data.
