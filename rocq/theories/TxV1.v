(** Parsing of TransactionV1: parser_impl_transactionV1.c 231-736, 1542-1628. *)
From Verif Require Import Base Zxlib Crypto Utils RuntimeArg.

(** parser_txdef.h 122-136: entry_point_type_e *)
Definition EntryPointCall := 0.         Definition EntryPointCustom := 1.
Definition EntryPointTransfer := 2.     Definition EntryPointAddBid := 3.
Definition EntryPointWithdrawBid := 4.  Definition EntryPointDelegate := 5.
Definition EntryPointUndelegate := 6.   Definition EntryPointRedelegate := 7.
Definition EntryPointActivateBid := 8.  Definition EntryPointChangePublicKey := 9.
Definition EntryPointAddReservations := 10. Definition EntryPointCancelReservations := 11.
Definition EntryPointBurn := 12.
(** parser_txdef.h 138-145: target_type_e *)
Definition TargetNative := 0.              Definition TargetStoredByHash := 1.
Definition TargetStoredByName := 2.        Definition TargetStoredByPackageHash := 3.
Definition TargetStoredByPackageName := 4. Definition TargetSession := 5.
(** parser_txdef.h 101-105: pricing_mode_e *)
Definition PricingModeClassic := 0. Definition PricingModeFixed := 1. Definition PricingModePrepaid := 2.

(** parser_txdef.h 147-155: target_t; the pointer is kept as a buffer index. *)
Record target := mkTarget { ttype : Z; tptr : Z; tname_len : Z; entity_version : Z }.

(** parser_txdef.h 107-114: parser_header_txnV1_t; pricing_mode_items is the
    constant 2 once the pricing mode has been read. *)
Record header_v1 := mkHeaderV1 {
  initiator_address_metadata_size : Z; initiator_address_len : Z; chain_name_len : Z;
  pricing_mode : Z; pricing_mode_metadata_size : Z }.
Definition pricing_mode_items := 2.

(** Runtime arguments of the body: args_type == BytesRepr, runtime_args_offset
    (uint8_t), runtime_args_len, num_runtime_args. *)
Record args_v1 := mkArgs {
  bytes_repr : bool; runtime_args_offset : Z; runtime_args_len : Z; num_runtime_args : Z }.

(** parser_txdef.h 162-176: parser_tx_txnV1_t *)
Record txv1 := mkTx {
  tmeta : metadata; theader : header_v1; tpayload_meta : metadata;
  entry_point_type : Z; custom_entry_point : Z; custom_entry_point_len : Z;
  ttarget : target; targs : args_v1; numItems : Z; num_approvals : Z }.

(** PARSER_ASSERT_OR_ERROR(ctx->offset == base + field, ...), 32-bit sum. *)
Definition at_field (base fo : Z) : P unit :=
  o <- get_off ;;
  check (o =? u32 (base + fo)) parser_unexpected_field_offset.

(** parser_impl_transactionV1.c 66-68: PAYLOAD_FIRST_FIELD_OFFSET *)
Definition payload_first (m pm : metadata) : Z :=
  u32 (metadata_size m + foff m 1 + metadata_size pm).

(** parser_impl_transactionV1.c 351-384: (metadata size, address length) *)
Definition read_initiator_address (m pm : metadata) : P (Z * Z) :=
  im <- read_metadata ;;
  let base := u32 (payload_first m pm + metadata_size im) in
  check (num_fields im =? 2) parser_unexpected_number_fields ;;
  at_field base (foff im 0) ;;
  tag <- readU8 ;;
  check ((tag =? 0) || (tag =? 1)) parser_unexpected_value ;;
  at_field base (foff im 1) ;;
  start <- get_off ;;
  (if tag =? 0 then read_public_key else read_hash) ;;
  at_field base (fields_size im) ;;
  o <- get_off ;;
  ret (metadata_size im, u8 (o - start)).

(** parser_impl_transactionV1.c 386-391 *)
Definition read_chain_name : P Z := len <- read_string ;; ret (u8 len).

(** parser_impl_transactionV1.c 393-445: (mode, metadata size) *)
Definition read_pricing_mode (m pm : metadata) : P (Z * Z) :=
  qm <- read_metadata ;;
  let base := u32 (payload_first m pm + foff pm 4 + metadata_size qm) in
  at_field base (foff qm 0) ;;
  tag <- readU8 ;;
  at_field base (foff qm 1) ;;
  (if tag =? 0 then
     readU64 ;;
     at_field base (foff qm 2) ;;
     readU8 ;;
     at_field base (foff qm 3) ;;
     readU8 ;; ret tt
   else if tag =? 1 then
     readU8 ;;
     at_field base (foff qm 2) ;;
     readU8 ;; ret tt
   else if tag =? 2 then read_hash
   else fail parser_unexpected_value) ;;
  at_field base (fields_size qm) ;;
  ret (tag, metadata_size qm).

(** parser_impl_transactionV1.c 307-349 *)
Definition read_txV1_header (m pm : metadata) : P header_v1 :=
  let base := payload_first m pm in
  at_field base (foff pm 0) ;;
  ia <- read_initiator_address m pm ;;
  at_field base (foff pm 1) ;;
  readU64 ;;
  at_field base (foff pm 2) ;;
  readU64 ;;
  at_field base (foff pm 3) ;;
  cl <- read_chain_name ;;
  at_field base (foff pm 4) ;;
  q <- read_pricing_mode m pm ;;
  at_field base (foff pm 5) ;;
  ret (mkHeaderV1 (fst ia) (snd ia) cl (fst q) (snd q)).

(** parser_impl_transactionV1.c 508-515 *)
Definition read_field_key (expected : Z) : P unit :=
  k <- readU16 ;;
  check (k =? expected) parser_unexpected_value.

(** parser_impl_transactionV1.c 490-494: one runtime argument *)
Definition read_arg : P unit := read_string ;; read_clvalue.

(** parser_impl_transactionV1.c 475-506.  runtime_args_offset is uint8_t.
    With BytesRepr num_runtime_args keeps the 0 of the memset. *)
Definition read_args : P args_v1 :=
  vec_len <- readU32 ;;
  tag <- readU8 ;;
  if tag =? 0 then
    n <- readU32 ;;
    o <- get_off ;;
    loop (R := unit) n (fun _ => read_arg ;; ret (Next tt)) tt ;;
    ret (mkArgs false (u8 o) vec_len n)
  else if tag =? 1 then
    o <- get_off ;;
    len <- read_bytes ;;
    ret (mkArgs true (u8 (o + 4)) len 0)
  else fail parser_unexpected_value.

Definition b2z (b : bool) : Z := if b then 1 else 0.

(** parser_impl_transactionV1.c 544-592: the stored target, after its
    metadata; (target, number of review items added). *)
Definition read_stored : P (target * Z) :=
  tag <- readU8 ;;
  x <- ask expert ;;
  o <- get_off ;;
  if tag =? 0 then read_entity_address ;; ret (mkTarget TargetStoredByHash o 0 0, 3)
  else if tag =? 1 then
    len <- read_string ;; ret (mkTarget TargetStoredByName (o + 4) len 0, 3)
  else if tag =? 2 then
    read_entity_address ;;
    ver <- read_entity_version ;;
    ret (mkTarget TargetStoredByPackageHash o 0 ver,
         3 + b2z (negb (ver =? NO_ENTITY_VERSION_PRESENT) && x))
  else if tag =? 3 then
    len <- read_string ;;
    ver <- read_entity_version ;;
    ret (mkTarget TargetStoredByPackageName (o + 4) len ver,
         3 + b2z (negb (ver =? NO_ENTITY_VERSION_PRESENT) && x))
  else fail parser_unexpected_value.

(** parser_impl_transactionV1.c 517-611 *)
Definition read_target : P (target * Z) :=
  readU32 ;;
  tm <- read_metadata ;;
  base <- get_off ;;
  at_field base (foff tm 0) ;;
  tag <- readU8 ;;
  if tag =? 0 then
    at_field base (fields_size tm) ;;
    ret (mkTarget TargetNative 0 0 0, 0)
  else if tag =? 1 then
    at_field base (foff tm 1) ;;
    read_metadata ;;
    r <- read_stored ;;
    read_runtime ;;
    ret r
  else if tag =? 2 then
    at_field base (foff tm 1) ;;
    read_bool ;;
    read_runtime ;;
    read_bytes ;;
    ret (mkTarget TargetSession 0 0 0, 0)
  else fail parser_unexpected_value.

(** One mandatory-argument check of check_sanity_native_transfer: getData
    from the start of the arguments, optionally with type U512. *)
Definition must_have (start n : Z) (arg : string) (u512 : bool) : P unit :=
  set_off start ;;
  d <- getData (str arg) n ;;
  if u512 then check (snd d =? TAG_U512) parser_unexpected_value else ret tt.

(** parser_impl_transactionV1.c 1542-1628.  It runs on a copy of the context
    whose offset is runtime_args_offset; the caller's offset is unchanged. *)
Definition check_sanity_native_transfer (a : args_v1) (ep tt_ : Z) : P unit :=
  saved <- get_off ;;
  let s := runtime_args_offset a in
  let n := num_runtime_args a in
  check ((ep =? EntryPointCustom) || (tt_ =? TargetNative) || (tt_ =? TargetSession))
        parser_invalid_stored_contract ;;
  (if ep =? EntryPointTransfer then
     must_have s n "amount" true ;; must_have s n "target" false ;; must_have s n "id" false
   else if ep =? EntryPointAddBid then
     must_have s n "public_key" false ;; must_have s n "delegation_rate" false ;;
     must_have s n "amount" true ;; must_have s n "minimum_delegation_amount" false ;;
     must_have s n "maximum_delegation_amount" false
   else if ep =? EntryPointWithdrawBid then
     must_have s n "public_key" false ;; must_have s n "amount" true
   else if (ep =? EntryPointDelegate) || (ep =? EntryPointUndelegate) then
     must_have s n "delegator" false ;; must_have s n "validator" false ;; must_have s n "amount" true
   else if ep =? EntryPointRedelegate then must_have s n "new_validator" false
   else if ep =? EntryPointActivateBid then must_have s n "validator_public_key" false
   else if ep =? EntryPointChangePublicKey then
     must_have s n "public_key" false ;; must_have s n "new_public_key" false
   else if ep =? EntryPointAddReservations then must_have s n "reservations" false
   else if ep =? EntryPointCancelReservations then
     must_have s n "validator" false ;; must_have s n "delegators" false
   else if ep =? EntryPointBurn then
     must_have s n "source" false ;; must_have s n "amount" true
   else ret tt) ;;
  set_off saved.

(** parser_impl_transactionV1.c 643-685: review items for the entry point
    ("Type" included). *)
Definition entry_point_items (x : bool) (ep n : Z) : Z :=
  1 + (if ep =? EntryPointTransfer then (if x then n else 2)
       else if ep =? EntryPointCustom then 1
       else if ep =? EntryPointAddReservations then 2
       else if ep =? EntryPointCancelReservations then 3
       else if ep =? EntryPointCall then 0
       else n).

(** parser_impl_transactionV1.c 613-692: (entry point, name pointer, name
    length, items) *)
Definition read_entry_point (a : args_v1) (tt_ : Z) : P (Z * Z * Z * Z) :=
  readU32 ;;
  em <- read_metadata ;;
  base <- get_off ;;
  at_field base (foff em 0) ;;
  tag <- readU8 ;;
  check (tag <=? EntryPointBurn) parser_unexpected_value ;;
  pl <- (if tag =? EntryPointCustom then
           at_field base (foff em 1) ;;
           o <- get_off ;;
           len <- read_bytes ;;
           ret (o + 4, len)
         else ret (0, 0)) ;;
  at_field base (fields_size em) ;;
  x <- ask expert ;;
  check_sanity_native_transfer a tag tt_ ;;
  ret (tag, fst pl, snd pl, entry_point_items x tag (num_runtime_args a)).

(** parser_impl_transactionV1.c 694-720 *)
Definition read_scheduling : P unit :=
  readU32 ;;
  sm <- read_metadata ;;
  base <- get_off ;;
  at_field base (foff sm 0) ;;
  tag <- readU8 ;;
  check (tag =? 0) parser_unexpected_value ;;
  at_field base (fields_size sm).

(** parser_impl_transactionV1.c 447-473 *)
Definition read_txV1_body : P (args_v1 * (target * Z) * (Z * Z * Z * Z)) :=
  n <- readU32 ;;
  check (n =? 4) parser_unexpected_value ;;
  read_field_key 0 ;;
  a <- read_args ;;
  read_field_key 1 ;;
  t <- read_target ;;
  read_field_key 2 ;;
  e <- read_entry_point a (ttype (fst t)) ;;
  read_field_key 3 ;;
  read_scheduling ;;
  ret (a, t, e).

(** parser_impl_transactionV1.c 291-305 *)
Definition read_txV1_approvals : P Z :=
  n <- readU32 ;;
  loop (R := unit) n (fun _ => read_public_key ;; read_signature ;; ret (Next tt)) tt ;;
  ret (u8 n).

(** parser_impl_transactionV1.c 231-289.  numItems is incremented along the
    way in the C code (uint8_t); the sum is the same modulo 256:
    hash, Account, Chain ID always; Timestamp, Ttl, Payment, Max gas and
    Approvals in expert mode; then the target and entry point items. *)
Definition parser_read_transactionV1 : P txv1 :=
  n <- ask blen ;;
  check (negb (n =? 0)) parser_unexpected_value ;;
  m <- read_metadata ;;
  let base := metadata_size m in
  at_field base (foff m 0) ;;
  read_hash ;;
  at_field base (foff m 1) ;;
  pm <- read_metadata ;;
  let pbase := payload_first m pm in
  at_field pbase (foff pm 0) ;;
  h <- read_txV1_header m pm ;;
  at_field pbase (foff pm 5) ;;
  b <- read_txV1_body ;;
  at_field pbase (fields_size pm) ;;
  at_field base (foff m 2) ;;
  na <- read_txV1_approvals ;;
  at_field base (fields_size m) ;;
  x <- ask expert ;;
  let '(a, (t, nt), (ep, eptr, elen, ne)) := b in
  ret (mkTx m h pm ep eptr elen t a (u8 (3 + (if x : bool then 5 else 0) + nt + ne)) na).

(** parser_impl_transactionV1.c 722-736 *)
Definition validateTxV1 (v : txv1) : P unit :=
  let m := tmeta v in
  H <- ask hash ;;
  p <- mem_slice (metadata_size m + foff m 1)
                 (metadata_size (tpayload_meta v) + fields_size (tpayload_meta v)) ;;
  h <- mem_slice (metadata_size m + foff m 0) 32 ;;
  check (list_eqb (H p) h) parser_context_mismatch.
