(** Review screens of TransactionV1: parser_impl_transactionV1.c 181-228 and
    738-1540. *)
From Verif Require Import Base Zxlib Crypto Utils RuntimeArg DeployUI TxV1.

Inductive part_v1 :=
| v1_initiator | v1_timestamp | v1_ttl | v1_chainname | v1_payment | v1_gasprice | v1_receipt.

(** parser_impl_transactionV1.c 181-228 *)
Definition index_headerpart_txnV1 (v : txv1) (p : part_v1) : P unit :=
  let h := theader v in
  let base := u16 (metadata_size (tmeta v) + foff (tmeta v) 1 + metadata_size (tpayload_meta v)
                   + initiator_address_metadata_size h + 1) in
  let after := base + initiator_address_len h in
  let pm := after + 8 + 8 + 4 + chain_name_len h + pricing_mode_metadata_size h + 1 in
  set_off (match p with
           | v1_initiator => base
           | v1_timestamp => after
           | v1_ttl => after + 8
           | v1_chainname => after + 8 + 8 + 4
           | v1_payment => pm
           | v1_gasprice => u16 pm + (if pricing_mode h =? PricingModeClassic then 8 else 0)
           | v1_receipt => pm
           end) ;;
  o <- get_off ;;
  n <- ask blen ;;
  check (o <=? n) parser_unexpected_buffer_end.

(** parser_impl_transactionV1.c 740-784 *)
Definition entry_point_to_str (ep : Z) : string :=
  if ep =? EntryPointCall then "Call"
  else if ep =? EntryPointCustom then "Contract Execution"
  else if ep =? EntryPointTransfer then "Transfer"
  else if ep =? EntryPointAddBid then "Add Bid"
  else if ep =? EntryPointWithdrawBid then "Withdraw Bid"
  else if ep =? EntryPointDelegate then "Delegate"
  else if ep =? EntryPointUndelegate then "Undelegate"
  else if ep =? EntryPointRedelegate then "Redelegate"
  else if ep =? EntryPointActivateBid then "Activate Bid"
  else if ep =? EntryPointChangePublicKey then "Change Bid PK"
  else if ep =? EntryPointAddReservations then "Add Reservations"
  else if ep =? EntryPointCancelReservations then "Cancel Reservations"
  else if ep =? EntryPointBurn then "Burn"
  else "Unknown".

(** snprintf(tmp, 100, "%.*s", len, buffer + o), parser_impl_transactionV1.c
    947-950 and similar: at most [len] characters up to a NUL; a length above
    INT_MAX is a negative precision, i.e. no limit. *)
Definition text_at (o len : Z) : P (list Z) :=
  m <- ask mem ;;
  let avail := if 0 <=? o then skipn (Z.to_nat o) m else [] in
  let p := int_of_u32 len in
  if (0 <=? p) && (p <=? zlen avail) then ret (firstn 99 (cstr (firstn (Z.to_nat p) avail)))
  else if existsb (Z.eqb 0) avail then ret (firstn 99 (cstr avail))
  else undef OobRead.

Definition show_text (key : string) (o len : Z) : P item :=
  s <- text_at o len ;; ret (mkItem (str key) (VPaged s)).

Definition show_hash_decimal (o : Z) : P item :=
  bs <- mem_slice o 32 ;; ret (mkItem (str "Address") (parser_printByHashAddress bs)).

(** parser_impl_transactionV1.c 1044-1056 *)
Definition show_custom_args_hash (v : txv1) : P item :=
  let a := targs v in
  bs <- (if bytes_repr a then mem_slice (runtime_args_offset a) (runtime_args_len a)
         else mem_slice (runtime_args_offset a - 4) (u32 (runtime_args_len a - 1))) ;;
  H <- ask hash ;;
  d <- lift (printBytes H (H bs)) ;;
  ret (mkItem (str "Args hash") d).

(** parser_impl_transactionV1.c 921-1057; idx is the index minus 8. *)
Definition getItem_Custom (v : txv1) (idx : Z) : P item :=
  x <- ask expert ;;
  let num := u32 (numItems v - (if x : bool then 9 else 4)) in
  check (idx <? num) parser_no_data ;;
  let t := ttarget v in
  let ep := show_text "Entry-point" (custom_entry_point v) (custom_entry_point_len v) in
  let name := show_text "Name" (tptr t) (tname_len t) in
  let versioned kind second :=
    if idx =? 0 then ret (execution kind)
    else if idx =? 1 then second
    else if (x : bool) && (idx =? 2) then
      ret (if entity_version t =? NO_ENTITY_VERSION_PRESENT then question
           else mkItem (str "Version") (printUInt (entity_version t)))
    else if (if x : bool then idx else idx + 1) =? 3 then ep
    else show_custom_args_hash v in
  if ttype t =? TargetStoredByHash then
    if idx =? 0 then ret (execution "by-hash")
    else if idx =? 1 then show_hash_decimal (tptr t)
    else if idx =? 2 then ep
    else show_custom_args_hash v
  else if ttype t =? TargetStoredByName then
    if idx =? 0 then ret (execution "by-name")
    else if idx =? 1 then name
    else if idx =? 2 then ep
    else show_custom_args_hash v
  else if ttype t =? TargetStoredByPackageHash then versioned "by-hash-versioned"%string (show_hash_decimal (tptr t))
  else if ttype t =? TargetStoredByPackageName then versioned "by-name-versioned"%string name
  else show_custom_args_hash v.

(** parser_impl_transactionV1.c 1059-1116 *)
Definition getItem_txV1_Transfer (n idx : Z) : P item :=
  start <- get_off ;;
  check (idx <? n) parser_no_data ;;
  x <- ask expert ;;
  let rest idx :=
    if idx =? 1 then show_arg (str "Target") (str "target") n
    else if idx =? 2 then show_motes (str "Amount") (str "amount") n
    else if (x : bool) && (idx =? 3) then show_arg (str "ID") (str "id") n
    else ret question in
  if x : bool then
    r <- try (getData (str "source") n) ;;
    match r with
    | inl d =>
        if idx =? 0 then v <- display_runtimeArg (snd d) (fst d) ;; ret (mkItem (str "From") v)
        else set_off start ;; rest idx
    | inr e =>
        if e =? parser_no_data then set_off start ;; rest (idx + 1)
        else set_off start ;; fail e
    end
  else rest (idx + 1).

(** parser_impl_transactionV1.c 1118-1168, idx0 = 0: the value of "Payment" *)
Definition payment_value (v : txv1) : P dval :=
  if pricing_mode (theader v) =? PricingModeClassic then
    index_headerpart_txnV1 v v1_payment ;;
    val <- readU64 ;;
    s <- lift (uint64_to_str 20 val) ;;
    match add_thousand_separators 30 s with
    | Ret t => ret (VPaged t)
    | Fail _ => ret (VPaged [])
    | Undef u => undef u
    end
  else if pricing_mode (theader v) =? PricingModeFixed then ret (VDirect (str "Fixed"))
  else if pricing_mode (theader v) =? PricingModePrepaid then ret (VDirect (str "Prepaid"))
  else fail parser_unexpected_value.

(** parser_impl_transactionV1.c 1148-1165, idx0 = 1 *)
Definition gas_value (v : txv1) : P dval :=
  if pricing_mode (theader v) =? PricingModePrepaid then
    index_headerpart_txnV1 v v1_receipt ;;
    o <- get_off ;;
    parser_printBytes o 32
  else
    index_headerpart_txnV1 v v1_gasprice ;;
    g <- readU8 ;;
    ret (VPaged (dec g)).

(** parser_impl_transactionV1.c 857-860: the error of
    parser_getItem_pricing_mode is ignored; key written, value still "?". *)
Definition ignoring_errors (key : string) (p : P dval) : P item :=
  r <- try p ;;
  ret (mkItem (str key) (match r with inl d => d | inr _ => VDirect (str "?") end)).
Definition getItem_pricing_mode (v : txv1) (idx0 : Z) : P item :=
  if idx0 =? 0 then ignoring_errors "Payment" (payment_value v)
  else ignoring_errors (if pricing_mode (theader v) =? PricingModePrepaid then "Receipt" else "Max gs prce")
                       (gas_value v).

(** parser_impl_transactionV1.c 1170-1227 *)
Definition getItem_AddBid (n idx : Z) : P item :=
  check (idx <? n) parser_no_data ;;
  if idx =? 0 then show_arg (str "Pk") (str "public_key") n
  else if idx =? 1 then show_arg (str "Deleg. rate") (str "delegation_rate") n
  else if idx =? 2 then show_motes (str "Amount") (str "amount") n
  else if idx =? 3 then show_arg (str "Min. amount") (str "minimum_delegation_amount") n
  else if idx =? 4 then show_arg (str "Max. amount") (str "maximum_delegation_amount") n
  else if idx =? 5 then show_arg (str "Rsrvd slots") (str "reserved_slots") n
  else ret question.

(** parser_impl_transactionV1.c 1229-1257 *)
Definition getItem_WithdrawBid (n idx : Z) : P item :=
  check (idx <? n) parser_no_data ;;
  if idx =? 0 then show_arg (str "Pk") (str "public_key") n
  else if idx =? 1 then show_motes (str "Amount") (str "amount") n
  else ret question.

(** parser_impl_transactionV1.c 1259-1300: Delegate and Undelegate *)
Definition getItem_Delegate (n idx : Z) : P item :=
  check (idx <? n) parser_no_data ;;
  if idx =? 0 then show_arg (str "Delegator") (str "delegator") n
  else if idx =? 1 then show_arg (str "Validator") (str "validator") n
  else if idx =? 2 then show_motes (str "Amount") (str "amount") n
  else ret question.

(** parser_impl_transactionV1.c 1316-1344: is the argument present? *)
Definition exists_arg (start : Z) (arg : string) (n : Z) : P bool :=
  r <- try (getData (str arg) n) ;;
  match r with
  | inl _ => set_off start ;; ret true
  | inr e => if e =? parser_no_data then set_off start ;; ret false else fail e
  end.

(** parser_impl_transactionV1.c 1302-1385 *)
Definition getItem_Redelegate (n idx : Z) : P item :=
  start <- get_off ;;
  check (idx <? n) parser_no_data ;;
  dl <- exists_arg start "delegator" n ;;
  ov <- exists_arg start "validator" n ;;
  am <- exists_arg start "amount" n ;;
  if (dl : bool) && (idx =? 0) then show_arg (str "Delegator") (str "delegator") n
  else
    let idx := if dl : bool then idx else idx + 1 in
    if (ov : bool) && (idx =? 1) then show_arg (str "Old") (str "validator") n
    else
      let idx := if ov : bool then idx else idx + 1 in
      if idx =? 2 then show_arg (str "New") (str "new_validator") n
      else if (am : bool) && (idx =? 3) then show_motes (str "Amount") (str "amount") n
      else ret question.

(** parser_impl_transactionV1.c 1387-1408 *)
Definition getItem_ActivateBid (n idx : Z) : P item :=
  check (idx <? n) parser_no_data ;;
  if idx =? 0 then show_arg (str "Validtr pk") (str "validator_public_key") n
  else ret question.

(** parser_impl_transactionV1.c 1410-1438 *)
Definition getItem_ChangePublicKey (n idx : Z) : P item :=
  check (idx <? n) parser_no_data ;;
  if idx =? 0 then show_arg (str "Pk") (str "public_key") n
  else if idx =? 1 then show_arg (str "New pk") (str "new_public_key") n
  else ret question.

(** The first byte of the value, and the hash of the value:
    parser_impl_transactionV1.c 1454-1466, 1492-1507. *)
Definition show_first_byte (key : string) (o : Z) : P item :=
  b <- mem_at o ;; ret (mkItem (str key) (printUInt b)).
Definition show_value_hash (key : string) (o len : Z) : P item :=
  bs <- mem_slice o len ;;
  H <- ask hash ;;
  d <- lift (printBytes H (H bs)) ;;
  ret (mkItem (str key) d).

(** parser_impl_transactionV1.c 1440-1470 *)
Definition getItem_AddReservations (idx : Z) : P item :=
  check (idx <? 2) parser_no_data ;;
  d <- getData (str "reservations") 2 ;;
  o <- get_off ;;
  if idx =? 0 then show_first_byte "Rsrv len" o
  else if idx =? 1 then show_value_hash "Rsrv hash" o (fst d)
  else ret question.

(** parser_impl_transactionV1.c 1472-1511 *)
Definition getItem_CancelReservations (idx : Z) : P item :=
  check (idx <? 3) parser_no_data ;;
  if idx =? 0 then show_arg (str "Validator") (str "validator") 3
  else if idx =? 1 then
    d <- getData (str "delegators") 3 ;;
    o <- get_off ;;
    show_first_byte "Dlgtrs len" o
  else if idx =? 2 then
    d <- getData (str "delegators") 3 ;;
    o <- get_off ;;
    show_value_hash "Dlgtrs hash" o (fst d)
  else ret question.

(** parser_impl_transactionV1.c 1513-1540 *)
Definition getItem_Burn (n idx : Z) : P item :=
  start <- get_off ;;
  check (idx <? n) parser_no_data ;;
  r <- try (getData (str "source") n) ;;
  match r with
  | inl d =>
      if idx =? 0 then v <- display_runtimeArg (snd d) (fst d) ;; ret (mkItem (str "Source") v)
      else set_off start ;; show_motes (str "Amount") (str "amount") n
  | inr _ => set_off start ;; show_motes (str "Amount") (str "amount") n
  end.

(** parser_impl_transactionV1.c 867-908: the items of the arguments *)
Definition getItem_args (v : txv1) (idx : Z) : P item :=
  let ep := entry_point_type v in
  let n := num_runtime_args (targs v) in
  set_off (runtime_args_offset (targs v)) ;;
  if ep =? EntryPointCustom then getItem_Custom v idx
  else if ep =? EntryPointTransfer then getItem_txV1_Transfer n idx
  else if ep =? EntryPointAddBid then getItem_AddBid n idx
  else if ep =? EntryPointWithdrawBid then getItem_WithdrawBid n idx
  else if (ep =? EntryPointDelegate) || (ep =? EntryPointUndelegate) then getItem_Delegate n idx
  else if ep =? EntryPointRedelegate then getItem_Redelegate n idx
  else if ep =? EntryPointActivateBid then getItem_ActivateBid n idx
  else if ep =? EntryPointChangePublicKey then getItem_ChangePublicKey n idx
  else if ep =? EntryPointAddReservations then getItem_AddReservations idx
  else if ep =? EntryPointCancelReservations then getItem_CancelReservations idx
  else if ep =? EntryPointBurn then getItem_Burn n idx
  else ret question.

(** parser_impl_transactionV1.c 786-919; idx is a uint8_t. *)
Definition getItemTxV1 (v : txv1) (idx : Z) : P item :=
  let num := numItems v in
  check (idx <? num) parser_no_data ;;
  x <- ask expert ;;
  let rt := u16 (num - (if x : bool then 9 else 2 + pricing_mode_items)) in
  if idx =? 0 then
    set_off (metadata_size (tmeta v) + foff (tmeta v) 0) ;;
    o <- get_off ;;
    d <- parser_printBytes o 32 ;;
    ret (mkItem (str "Txn hash") d)
  else if idx =? 1 then ret (mkItem (str "Type") (VDirect (str (entry_point_to_str (entry_point_type v)))))
  else if idx =? 2 then
    index_headerpart_txnV1 v v1_chainname ;;
    o <- get_off ;;
    DISPLAY_STRING (str "Chain ID") o (chain_name_len (theader v))
  else if idx =? 3 then
    index_headerpart_txnV1 v v1_initiator ;;
    o <- get_off ;;
    d <- parser_printBytes o (initiator_address_len (theader v)) ;;
    ret (mkItem (str "Account") d)
  else if (x : bool) && (idx =? 4) then index_headerpart_txnV1 v v1_timestamp ;; show_timestamp
  else if (x : bool) && (idx =? 5) then index_headerpart_txnV1 v v1_ttl ;; show_ttl
  else if (x : bool) && (idx <? 6 + pricing_mode_items) then getItem_pricing_mode v (idx - 6)
  else
    let idx := if x : bool then idx else u8 (idx + 2 + pricing_mode_items) in
    if (8 <=? idx) && (idx <? 8 + rt) then getItem_args v (idx - 8)
    else if (8 + rt <=? idx) && (x : bool) then
      ret (mkItem (str "Approvals #") (VDirect (dec (num_approvals v))))
    else ret question.
