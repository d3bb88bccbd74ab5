(** Parsing of Deploy transactions: parser_impl_deploy.c 38-325 and the
    parsing half of parser_special.c. *)
From Verif Require Import Base Zxlib Crypto Utils RuntimeArg.

(** parser_txdef.h 41-45: parser_header_deploy_t *)
Record header_deploy := mkHeader { pubkeytype : Z; lenDependencies : Z; lenChainName : Z }.

(** parser_txdef.h 50-57: deploy_type_e *)
Definition ModuleBytes := 0.                   Definition StoredContractByHash := 1.
Definition StoredContractByName := 2.          Definition StoredVersionedContractByHash := 3.
Definition StoredVersionedContractByName := 4. Definition Transfer := 5.
Definition NUM_DEPLOY_TYPES := 6.
(** parser_txdef.h 60-67: special_deploy_e; 255 is the initial value. *)
Definition Generic := 0.   Definition SystemPayment := 1. Definition NativeTransfer := 2.
Definition Delegate := 3.  Definition UnDelegate := 4.    Definition ReDelegate := 5.

(** parser_txdef.h 80-91: ExecutableDeployItem.  Not kept: phase (a parameter
    here), num_runtime_args (never read), hasAmount (returned by the payment
    parser, the only place where it is read). *)
Record ditem := mkD {
  dtype : Z; dspecial : Z; dgeneric : bool; UI_fixed_items : Z;
  UI_runtime_items : Z; totalLength : Z; itemOffset : Z }.
Definition set_special (x : Z) (i : ditem) :=
  mkD (dtype i) x (dgeneric i) (UI_fixed_items i) (UI_runtime_items i) (totalLength i) (itemOffset i).
Definition set_generic (x : bool) (i : ditem) :=
  mkD (dtype i) (dspecial i) x (UI_fixed_items i) (UI_runtime_items i) (totalLength i) (itemOffset i).
Definition set_fixed (x : Z) (i : ditem) :=
  mkD (dtype i) (dspecial i) (dgeneric i) x (UI_runtime_items i) (totalLength i) (itemOffset i).
Definition add_runtime (x : Z) (i : ditem) :=
  mkD (dtype i) (dspecial i) (dgeneric i) (UI_fixed_items i) (u32 (UI_runtime_items i + x)) (totalLength i) (itemOffset i).
Definition set_total (x : Z) (i : ditem) :=
  mkD (dtype i) (dspecial i) (dgeneric i) (UI_fixed_items i) (UI_runtime_items i) x (itemOffset i).
Definition set_itemOffset (x : Z) (i : ditem) :=
  mkD (dtype i) (dspecial i) (dgeneric i) (UI_fixed_items i) (UI_runtime_items i) (totalLength i) x.

(** parser_txdef.h 93-99: parser_tx_deploy_t.  [entry_point_offset] is the
    global of parser_special.c 29, reset by parser_init_context.  type is
    always Transaction after a successful read; wasmHash is never used. *)
Record deploy := mkDeploy {
  dheader : header_deploy; payment : ditem; session : ditem; entry_point_offset : Z }.

(** parser_impl_deploy.c 39, 49 *)
Definition pubkeyLen (h : header_deploy) : Z := 1 + (if pubkeytype h =? 2 then 33 else 32).
(** parser_impl_deploy.c 41, 50 *)
Definition depsLen (h : header_deploy) : Z := u16 (4 + u32 (lenDependencies h * 32)).
(** parser_impl_deploy.c 38-44 *)
Definition header_length_deploy (h : header_deploy) : Z :=
  u16 (pubkeyLen h + 56 + depsLen h + u16 (4 + lenChainName h)).

Inductive header_part :=
| header_pubkey | header_timestamp | header_ttl | header_gasprice | header_bodyhash
| header_deps | header_chainname.

(** parser_impl_deploy.c 46-96 *)
Definition index_headerpart_deploy (h : header_deploy) (p : header_part) : P unit :=
  set_off (match p with
           | header_pubkey => 0
           | header_timestamp => pubkeyLen h
           | header_ttl => pubkeyLen h + 8
           | header_gasprice => pubkeyLen h + 8 + 8
           | header_bodyhash => pubkeyLen h + 8 + 8 + 8
           | header_deps => pubkeyLen h + 56
           | header_chainname => pubkeyLen h + 56 + depsLen h
           end) ;;
  o <- get_off ;;
  n <- ask blen ;;
  check (o <=? n) parser_unexpected_buffer_end.

(** parser_impl_deploy.c 98-105 *)
Definition parseDeployType : P Z :=
  t <- readU8 ;;
  check (t <=? NUM_DEPLOY_TYPES) parser_value_out_of_range ;;
  ret t.

(** * parser_special.c: argument checks *)

(** parser_special.c 31-37 *)
Definition CHECK_RUNTIME_ARGTYPE (n : Z) (arg : list Z) (cond : Z -> Z -> bool) : P unit :=
  r <- searchRuntimeArgs arg n ;;
  check (cond (fst r) (snd r)) parser_unexpected_type.

(** parser_special.c 39-49.  [inl found'] continues; [inr tt] returns
    parser_ok from the enclosing function: that is what the macro does when
    the argument exists but the condition is false. *)
Definition COUNT_RUNTIME_ARGTYPE (n : Z) (arg : list Z) (cond : Z -> Z -> bool) (found : Z) : P (Z + unit) :=
  r <- try (searchRuntimeArgs arg n) ;;
  match r with
  | inl x => if cond (fst x) (snd x) then ret (inl (u16 (found + 1))) else ret (inr tt)
  | inr e =>
      if (e =? parser_runtimearg_notfound) || (e =? parser_unexpected_type) then ret (inl found)
      else fail e
  end.

Definition is_u512 (t it : Z) : bool := t =? TAG_U512.
Definition is_u512_or_u32 (t it : Z) : bool := (t =? TAG_U512) || (t =? TAG_U32).
Definition is_pubkey (t it : Z) : bool := t =? TAG_PUBLIC_KEY.
Definition is_id (t it : Z) : bool := ((t =? TAG_OPTION) && (it =? TAG_U64)) || (t =? TAG_U64).
Definition is_account (t it : Z) : bool :=
  (t =? TAG_KEY) || (t =? TAG_UREF) || (t =? TAG_BYTE_ARRAY) || (t =? TAG_PUBLIC_KEY).

(** parser_special.c 155-177: number of expected arguments found; 0 when a
    COUNT macro returned early. *)
Definition checkNativeTransferArgs (n : Z) : P Z :=
  CHECK_RUNTIME_ARGTYPE n (str "amount") is_u512 ;;
  c1 <- COUNT_RUNTIME_ARGTYPE n (str "amount") is_u512 0 ;;
  match c1 with inr _ => ret 0 | inl f1 =>
  c2 <- COUNT_RUNTIME_ARGTYPE n (str "id") is_id f1 ;;
  match c2 with inr _ => ret 0 | inl f2 =>
  c3 <- COUNT_RUNTIME_ARGTYPE n (str "target") is_account f2 ;;
  match c3 with inr _ => ret 0 | inl f3 =>
  if n =? 4 then
    c4 <- COUNT_RUNTIME_ARGTYPE n (str "source") is_account f3 ;;
    match c4 with inr _ => ret 0 | inl f4 => ret f4 end
  else ret f3
  end end end.

(** parser_special.c 179-216 *)
Definition parseNativeTransfer (i : ditem) (n : Z) : P ditem :=
  found <- checkNativeTransferArgs n ;;
  let uitems := u32 (n - found) in
  let expected := (found =? 3) || (found =? 4) in
  if (uitems =? 0) && expected then
    x <- ask expert ;;
    ret (set_generic false (add_runtime (if x : bool then n else 2) i))
  else if uitems =? 0 then fail parser_unexpected_number_items
  else ret (add_runtime 1 (set_generic true i)).

(** parser_special.c 218-228 *)
Definition checkForSystemPaymentArgs (n : Z) : P unit :=
  check (n =? 1) parser_unexpected_number_items ;;
  CHECK_RUNTIME_ARGTYPE n (str "amount") is_u512.

(** parser_special.c 230-251: the item and its hasAmount. *)
Definition parseSystemPayment (i : ditem) (n : Z) : P (ditem * bool) :=
  if n =? 0 then fail parser_unexpected_number_items else
  r <- try (checkForSystemPaymentArgs n) ;;
  match r with
  | inl _ => ret (add_runtime 1 (set_generic false i), true)
  | inr e =>
      if (e =? parser_unexpected_number_items) || (e =? parser_runtimearg_notfound)
         || (e =? parser_unexpected_type)
      then ret (add_runtime 1 (set_generic true i), false)
      else fail e
  end.

(** parser_special.c 593-629; hasAmount and *fitems are not read afterwards. *)
Definition checkForDelegationItems (i : ditem) (n : Z) (redelegate : bool) : P ditem :=
  c1 <- COUNT_RUNTIME_ARGTYPE n (str "amount") is_u512_or_u32 0 ;;
  match c1 with inr _ => ret i | inl f1 =>
  c2 <- COUNT_RUNTIME_ARGTYPE n (str "delegator") is_pubkey f1 ;;
  match c2 with inr _ => ret i | inl f2 =>
  c3 <- COUNT_RUNTIME_ARGTYPE n (str "validator") is_pubkey f2 ;;
  match c3 with inr _ => ret i | inl f3 =>
  CHECK_RUNTIME_ARGTYPE n (str "delegator") is_pubkey ;;
  CHECK_RUNTIME_ARGTYPE n (str "validator") is_pubkey ;;
  CHECK_RUNTIME_ARGTYPE n (str "amount") is_u512_or_u32 ;;
  if dspecial i =? Generic then
    ret (set_generic true (set_fixed (u32 (f3 - 1)) (add_runtime 2 i)))
  else if redelegate then
    CHECK_RUNTIME_ARGTYPE n (str "new_validator") is_pubkey ;;
    ret (add_runtime 4 i)
  else ret (add_runtime 3 i)
  end end end.

(** parser_special.c 631-683: the ModuleBytes part of parseDelegation;
    (item, redelegation, hasAuction). *)
Definition parseDelegation_module (i : ditem) (n : Z) : P (ditem * bool * bool) :=
  start <- get_off ;;
  let i := set_itemOffset start i in
  r <- try (searchRuntimeArgs (str "new_validator") n) ;;
  let redelegation := match r with inl _ => true | inr _ => false end in
  d <- try (getData (str "auction") n) ;;
  ih <- match d with
        | inl x =>
            check (snd x =? TAG_STRING) parser_unexpected_type ;;
            o <- get_off ;;
            bl <- ask blen ;;
            check ((fst x <=? 100) && (u32 (o + fst x) <=? bl)) parser_unexpected_buffer_end ;;
            ret (i, true)
        | inr e =>
            if e =? parser_no_data then
              w <- ask wasm ;;
              if w : bool then fail parser_no_data
              else ret (set_itemOffset (u32 (itemOffset i - 4)) (set_generic true i), false)
            else fail e
        end ;;
  stringLength <- readU32 ;;
  o <- get_off ;;
  bs <- mem_slice o stringLength ;;
  require (stringLength <=? 100) OobWrite ;;
  let special := if list_eqb bs (str "delegate") then Delegate
                 else if list_eqb bs (str "undelegate") then UnDelegate
                 else if list_eqb bs (str "redelegate") then ReDelegate
                 else Generic in
  set_off start ;;
  ret (set_special special (fst ih), redelegation, snd ih).

(** parser_special.c 685-730: the rest of parseDelegation. *)
Definition parseDelegation_args (i : ditem) (n : Z) (redelegation hasAuction : bool) : P ditem :=
  (if redelegation then CHECK_RUNTIME_ARGTYPE n (str "new_validator") is_pubkey else ret tt) ;;
  r <- try (checkForDelegationItems i n redelegation) ;;
  i <- match r with
       | inl i' => ret i'
       | inr e =>
           if (e =? parser_runtimearg_notfound) || (e =? parser_unexpected_type) then
             a <- try (searchRuntimeArgs (str "amount") n) ;;
             ret (set_generic true (set_fixed 2
                   (add_runtime (match a with inl _ => 2 | inr _ => 1 end) i)))
           else fail e
       end ;;
  let i := if dspecial i =? Generic then set_generic true i else i in
  x <- ask expert ;;
  if (x : bool) && hasAuction then
    let versioned := (dtype i =? StoredVersionedContractByHash) || (dtype i =? StoredVersionedContractByName) in
    ret (set_fixed (2 + (if versioned then 1 else 0) + (if dgeneric i then 1 else 0)) i)
  else ret i.

(** parser_special.c 631-730 *)
Definition parseDelegation (i : ditem) (n : Z) (redelegation : bool) : P ditem :=
  if dtype i =? ModuleBytes then
    m <- parseDelegation_module i n ;;
    parseDelegation_args (fst (fst m)) n (snd (fst m)) (snd m)
  else parseDelegation_args i n redelegation true.

(** * parser_impl_deploy.c: deploy items *)

(** parser_impl_deploy.c 124-139, phase == Payment *)
Definition parseModuleBytes_payment (i : ditem) : P (ditem * bool) :=
  start <- off32 ;;
  parse_item ;;
  n <- readU32 ;;
  r <- parseSystemPayment i n ;;
  parseRuntimeArgs n ;;
  t <- parseTotalLength start ;;
  ret (set_total t (set_special SystemPayment (fst r)), snd r).

(** parser_impl_deploy.c 124-139, phase == Session *)
Definition parseModuleBytes_session (i : ditem) : P ditem :=
  start <- off32 ;;
  parse_item ;;
  n <- readU32 ;;
  i <- parseDelegation i n false ;;
  parseRuntimeArgs n ;;
  t <- parseTotalLength start ;;
  ret (set_total t i).

(** parser_impl_deploy.c 141-150 *)
Definition parseTransfer (i : ditem) : P ditem :=
  start <- off32 ;;
  n <- readU32 ;;
  i <- parseNativeTransfer i n ;;
  parseRuntimeArgs n ;;
  t <- parseTotalLength start ;;
  ret (set_total t (set_special NativeTransfer i)).

(** parser_impl_deploy.c 152-163; 0 when no version is given. *)
Definition parse_version : P Z :=
  t <- readU8 ;;
  if t =? 0 then ret 0
  else if t =? 1 then readU32
  else fail parser_context_unknown_prefix.

(** parser_impl_deploy.c 165-193: (item, number of arguments, entry_point_offset) *)
Definition check_entrypoint (i : ditem) : P (ditem * Z * Z) :=
  ep <- get_off ;;
  name <- copy_item_into_charbuffer 100 ;;
  io <- get_off ;;
  let i := set_itemOffset io i in
  n <- readU32 ;;
  let redelegation := name_is name (str "redelegate") in
  let special := if name_is name (str "delegate") then Delegate
                 else if name_is name (str "undelegate") then UnDelegate
                 else if redelegation then ReDelegate
                 else Generic in
  i <- parseDelegation (set_special special i) n redelegation ;;
  ret (i, n, ep).

(** parser_impl_deploy.c 195-210.  UI_fixed_items++ (expert mode, versioned)
    is omitted: in expert mode parseDelegation overwrites the field. *)
Definition parseStoredContractByHash (i : ditem) : P (ditem * Z) :=
  start <- off32 ;;
  advance 32 ;;
  (if dtype i =? StoredVersionedContractByHash then parse_version ;; ret tt else ret tt) ;;
  r <- check_entrypoint i ;;
  parseRuntimeArgs (snd (fst r)) ;;
  t <- parseTotalLength start ;;
  ret (set_total t (fst (fst r)), snd r).

(** parser_impl_deploy.c 212-229; same remark. *)
Definition parseStoredContractByName (i : ditem) : P (ditem * Z) :=
  start <- off32 ;;
  parse_item ;;
  (if dtype i =? StoredVersionedContractByName then parse_version ;; ret tt else ret tt) ;;
  r <- check_entrypoint i ;;
  parseRuntimeArgs (snd (fst r)) ;;
  t <- parseTotalLength start ;;
  ret (set_total t (fst (fst r)), snd r).

(** parser_impl_deploy.c 231-260: fields as initialised; the item offset is
    zero from the memset of parser.c 60. *)
Definition init_item (t : Z) : ditem := mkD t 255 false 0 0 0 0.

(** parser_impl_deploy.c 231-260 for the session; second component is
    entry_point_offset. *)
Definition parseDeployItem_session (t : Z) : P (ditem * Z) :=
  let i := init_item t in
  if t =? ModuleBytes then i' <- parseModuleBytes_session i ;; ret (i', 0)
  else if (t =? StoredVersionedContractByHash) || (t =? StoredContractByHash) then parseStoredContractByHash i
  else if (t =? StoredVersionedContractByName) || (t =? StoredContractByName) then parseStoredContractByName i
  else if t =? Transfer then i' <- parseTransfer i ;; ret (i', 0)
  else fail parser_context_mismatch.

(** parser_impl_deploy.c 262-288: header and payment, up to the session.
    Also parser_wasm.c 24-60 apart from the way the key type is read. *)
Definition read_header_counts (pk : Z) : P header_deploy :=
  let h0 := mkHeader pk 0 0 in
  index_headerpart_deploy h0 header_deps ;;
  nd <- readU32 ;;
  let h1 := mkHeader pk nd 0 in
  index_headerpart_deploy h1 header_chainname ;;
  nc <- readU32 ;;
  ret (mkHeader pk nd nc).

Definition read_payment : P ditem :=
  t <- parseDeployType ;;
  check (t =? ModuleBytes) parser_unexpected_type ;;
  r <- parseModuleBytes_payment (init_item t) ;;
  check (snd r) parser_no_data ;;
  ret (fst r).

(** parser_impl_deploy.c 262-301 *)
Definition parser_read_deploy : P deploy :=
  n <- ask blen ;;
  check (negb (n =? 0)) parser_unexpected_value ;;
  pk <- readU8 ;;
  check ((pk =? 1) || (pk =? 2)) parser_context_unknown_prefix ;;
  h <- read_header_counts pk ;;
  set_off (header_length_deploy h + BLAKE2B_256_SIZE) ;;
  pay <- read_payment ;;
  t <- parseDeployType ;;
  s <- parseDeployItem_session t ;;
  ret (mkDeploy h pay (fst s) (snd s)).

(** parser_impl_deploy.c 303-325 *)
Definition validateTxDeploy (v : deploy) : P unit :=
  let hl := header_length_deploy (dheader v) in
  H <- ask hash ;;
  hdr <- mem_slice 0 hl ;;
  dh <- mem_slice hl 32 ;;
  check (list_eqb (H hdr) dh) parser_context_mismatch ;;
  body <- mem_slice (u16 (hl + 32)) (u32 (totalLength (payment v) + totalLength (session v))) ;;
  index_headerpart_deploy (dheader v) header_bodyhash ;;
  o <- get_off ;;
  bh <- mem_slice o 32 ;;
  check (list_eqb (H body) bh) parser_context_mismatch.
