(** Properties C12 and C14 to C19: TransactionV1. *)
From Verif Require Import Base Zxlib Crypto Utils RuntimeArg Deploy DeployUI TxV1 TxV1UI Parser BaseFacts Spec SpecText SpecDeploy SpecTx Exec ArgsFacts ReaderFacts TextFacts Shows ReviewFacts Demo WitDeploy TxFacts TxBody TxShow TxReview TxClaims WitTx.
Import S ST SD SX.

(** ** C14  Native operations carry their mandatory arguments *)
(** Proved for well-formed transactions whose arguments start before byte 256
    ([before_args]); [mandatory n] lists the arguments of operation [n]. *)
Theorem C14_mandatory_arguments_partial :
  forall pf, hash32 (p_hash pf) -> forall x t, good_transaction (p_hash pf) t ->
  forall n l v, before_args t < 256 -> x_entry (x_payload t) = Op n -> x_args (x_payload t) = Named l ->
  tx_parse pf x (enc_v1 t) = Ret v ->
  forall name u512, In (name, u512) (mandatory n) ->
  exists a, find_arg (text name) l = Some a /\ (u512 = true -> a_ty a = Prim 8).
Proof. exact mandatory_present. Qed.
Print Assumptions C14_mandatory_arguments_partial.

(** The parser accepts exactly the transactions that are [acceptable]: stored
    contracts with a custom entry point, native operations with their
    mandatory arguments. *)
Theorem C14_accepted_exactly_partial :
  forall pf, hash32 (p_hash pf) -> forall x t, good_transaction (p_hash pf) t -> before_args t < 256 ->
  if acceptable (x_payload t) then parser_parse pf x (enc_v1 t) = Ret (TV1 (tx_obj x t))
  else exists c, parser_parse pf x (enc_v1 t) = Fail c.
Proof. exact v1_accept_iff. Qed.
Print Assumptions C14_accepted_exactly_partial.

(** In general false: the check looks 256 bytes too early, here inside a chain
    name.  [sealed]: correct hash, byte values, size, supported types. *)
Theorem C14_mandatory_arguments_refuted :
  exists pf t l, hash32 (p_hash pf) /\ x_entry (x_payload t) = Op NTransfer /\ x_args (x_payload t) = Named l /\
    sealed (p_hash pf) t /\
    (forall name, In name ["amount"; "target"; "id"]%string -> find_arg (text name) l = None) /\
    forall x, accepted pf x (enc_v1 t).
Proof. exact spoof_missing_refuted. Qed.
Print Assumptions C14_mandatory_arguments_refuted.

Example C14_case n :
  good_transaction (p_hash demo) (t_native n) /\ before_args (t_native n) < 256 /\
  x_entry (x_payload (t_native n)) = Op n /\ taken (tx_parse demo true (enc_v1 (t_native n))) = true.
Proof. split; [apply t_native_good|]. destruct n; (split; [|split]); vm_compute; reflexivity. Qed.
Example C14_case_missing :
  let t := mkx alice "casper" classic (Named [arg_amount; arg_id]) Native (Op NTransfer) in
  good_transaction (p_hash demo) t /\ before_args t < 256 /\ acceptable (x_payload t) = false /\ refused (parser_parse demo true (enc_v1 t)) = true.
Proof. cbv zeta. split; [v1_good|]. split; [|split]; vm_compute; reflexivity. Qed.

(** ** C15  Stored-contract transactions use a custom entry point *)
Theorem C15_stored_contract_custom :
  forall pf, hash32 (p_hash pf) -> forall x t, good_transaction (p_hash pf) t ->
  forall i r v, x_target (x_payload t) = XStored i r ->
  tx_parse pf x (enc_v1 t) = Ret v -> exists name, x_entry (x_payload t) = Custom name.
Proof. exact stored_custom. Qed.
Print Assumptions C15_stored_contract_custom.

Example C15_case t : In t t_calls ->
  good_transaction (p_hash demo) t /\ taken (tx_parse demo true (enc_v1 t)) = true.
Proof. intros I. cbn [t_calls In] in I. repeat destruct I as [<-|I]; try contradiction; (split; [v1_good | vm_compute; reflexivity]). Qed.

(** ** C16  Native operations show what they do *)
(** [review] gives the lines: hash, type, chain, account, in expert mode
    timestamp, time to live, pricing and approvals, and each argument of the
    operation taken from the transaction's own list; [None] when the arguments
    are not exactly those of the operation.  [xreviews]: the transaction is
    accepted, has that many items and item [i] shows line [i].
    Missing for the full claim: arguments starting at byte 256 or later. *)
Theorem C16_native_review_partial :
  forall pf x t n lines, hash32 (p_hash pf) -> good_transaction (p_hash pf) t ->
  x_entry (x_payload t) = Op n -> x_target (x_payload t) = Native ->
  review (p_hash pf) x t = Some lines -> xexpert_ok x (p_time pf) (x_payload t) -> before_args t < 256 ->
  xreviews pf x (enc_v1 t) lines.
Proof. exact native_review. Qed.
Print Assumptions C16_native_review_partial.

(** In general false: an ordinary transfer (secp256k1 account, prepaid, on
    casper-test) cannot be reviewed at all. *)
Theorem C16_native_review_refuted :
  exists pf t, hash32 (p_hash pf) /\ good_transaction (p_hash pf) t /\
    (exists l, x_entry (x_payload t) = Op NTransfer /\ x_target (x_payload t) = Native /\ x_args (x_payload t) = Named l) /\
    (forall x, xexpert_ok x (p_time pf) (x_payload t) /\ (exists lines, review (p_hash pf) x t = Some lines) /\
               exists c, tx_parse pf x (enc_v1 t) = Fail c).
Proof. exact long_refuted. Qed.
Print Assumptions C16_native_review_refuted.

Example C16_case x n :
  good_transaction (p_hash demo) (t_native n) /\ xexpert_ok x (p_time demo) (x_payload (t_native n)) /\
  before_args (t_native n) < 256 /\ exists lines, review (p_hash demo) x (t_native n) = Some lines.
Proof. exact (native_case x n). Qed.

(** ** C17  Arguments are read from the transaction's argument list *)
(** The arguments start at [before_args] (after their count), the position
    kept for them is that number modulo 256. *)
Theorem C17_arguments_position :
  forall pf, hash32 (p_hash pf) -> bool -> forall t, good_transaction (p_hash pf) t ->
  exists pre post, enc_transaction t = pre ++ arg_bytes (x_args (x_payload t)) ++ post /\
    zlen pre = before_args t - (match x_args (x_payload t) with Named _ => 4 | Raw _ => 0 end).
Proof. exact before_args_split. Qed.
Print Assumptions C17_arguments_position.
Theorem C17_position_kept_partial :
  forall pf, hash32 (p_hash pf) -> forall x t, good_transaction (p_hash pf) t ->
  forall v, parser_parse pf x (enc_v1 t) = Ret v ->
  exists w, v = TV1 w /\ runtime_args_offset (targs w) = before_args t mod 256.
Proof. exact offset_exact. Qed.
Print Assumptions C17_position_kept_partial.

(** So the claim is false: a well-formed contract call is shown with a hash
    that is not the hash of its arguments ... *)
Theorem C17_args_hash_refuted :
  exists pf t v it, hash32 (p_hash pf) /\ good_transaction (p_hash pf) t /\
    (exists name i r, x_entry (x_payload t) = Custom name /\ x_target (x_payload t) = XStored i r) /\
    tx_parse pf false (enc_v1 t) = Ret v /\ tx_getItem pf false 40 (enc_v1 t) v 7 = Ret it /\ ikey it = text "Args hash" /\
    ~ renders (p_hash pf) (p_time pf) (Hex (p_hash pf (arg_bytes (x_args (x_payload t))))) (ival it).
Proof. exact wrong_hash_refuted. Qed.
Print Assumptions C17_args_hash_refuted.
(** ... and a transfer, with a long chain name, with a target that is not its
    target. *)
Theorem C17_target_refuted :
  exists pf t l v it a, hash32 (p_hash pf) /\ x_entry (x_payload t) = Op NTransfer /\ x_target (x_payload t) = Native /\
    x_args (x_payload t) = Named l /\ sealed (p_hash pf) t /\
    tx_parse pf false (enc_v1 t) = Ret v /\ tx_getItem pf false 40 (enc_v1 t) v 4 = Ret it /\ ikey it = text "Target" /\
    find_arg (text "target") l = Some a /\
    forall w, arg_view (a_ty a) (a_val a) = Some w -> ~ renders (p_hash pf) (p_time pf) w (ival it).
Proof. exact spoof_target_refuted. Qed.
Print Assumptions C17_target_refuted.

Example C17_case n : good_transaction (p_hash demo) (t_native n) /\ taken (parser_parse demo true (enc_v1 (t_native n))) = true.
Proof. split; [apply t_native_good|]. destruct n; vm_compute; reflexivity. Qed.

(** ** C18  The number of items *)
(** [item_count]: fixed items plus one per argument shown. *)
Theorem C18_item_count_partial :
  forall pf, hash32 (p_hash pf) -> forall x t, good_transaction (p_hash pf) t ->
  forall v, tx_parse pf x (enc_v1 t) = Ret v -> item_count x (x_payload t) < 256 ->
  getNumItems x v = item_count x (x_payload t).
Proof. exact count_small. Qed.
Print Assumptions C18_item_count_partial.
Theorem C18_item_count_modulo :
  forall pf, hash32 (p_hash pf) -> forall x t, good_transaction (p_hash pf) t ->
  forall v, tx_parse pf x (enc_v1 t) = Ret v -> getNumItems x v = item_count x (x_payload t) mod 256.
Proof. exact count_exact. Qed.
Print Assumptions C18_item_count_modulo.

(** In general false: with 250 more arguments an accepted redelegation has no
    item at all. *)
Theorem C18_item_count_refuted :
  exists pf t1 t2 l1 more v1 v2, hash32 (p_hash pf) /\ good_transaction (p_hash pf) t1 /\ good_transaction (p_hash pf) t2 /\
    x_args (x_payload t1) = Named l1 /\
    x_payload t2 = Payload (x_initiator (x_payload t1)) (x_time (x_payload t1)) (x_ttl (x_payload t1)) (x_chain (x_payload t1))
                     (x_pricing (x_payload t1)) (Named (l1 ++ more)) (x_target (x_payload t1)) (x_entry (x_payload t1)) /\
    tx_parse pf false (enc_v1 t1) = Ret v1 /\ tx_parse pf false (enc_v1 t2) = Ret v2 /\
    getNumItems false v1 = 6 /\ getNumItems false v2 = 0.
Proof. exact many_args_refuted. Qed.
Print Assumptions C18_item_count_refuted.

Example C18_case n : good_transaction (p_hash demo) (t_native n) /\ taken (tx_parse demo true (enc_v1 (t_native n))) = true /\
  item_count true (x_payload (t_native n)) < 256.
Proof. split; [apply t_native_good|]. split; [apply C14_case|]. destruct n; vm_compute; reflexivity. Qed.

(** ** C19  Custom calls show address or name, entry point and argument hash *)
(** Proved when the arguments start before byte 256 and, in expert mode, the
    version of a versioned contract is given. *)
Theorem C19_custom_call_shown_partial :
  forall pf x t name i r, hash32 (p_hash pf) -> good_transaction (p_hash pf) t ->
  x_entry (x_payload t) = Custom name -> x_target (x_payload t) = XStored i r ->
  (x = true -> match i with ByHashV _ None | ByNameV _ None => False
                          | ByHashV _ (Some n) | ByNameV _ (Some n) => n <> 2 ^ 32 - 1 | _ => True end) ->
  xexpert_ok x (p_time pf) (x_payload t) -> before_args t < 256 ->
  exists v, tx_parse pf x (enc_v1 t) = Ret v /\
  forall l, In l [match i with ByHash h | ByHashV h _ => (text "Address", ByteDigits h) | ByName n | ByNameV n _ => xl "Name" (Text n) end;
                  xl "Entry-point" (Text name); xl "Args hash" (Hex (p_hash pf (arg_bytes (x_args (x_payload t)))))] ->
  exists k, 0 <= k < getNumItems x v /\
  forall kl, exists it, tx_getItem pf x kl (enc_v1 t) v k = Ret it /\ xshows (p_hash pf) (p_time pf) l it.
Proof. exact custom_shown. Qed.
Print Assumptions C19_custom_call_shown_partial.

(** In general false: a call of a versioned contract without version is
    reviewed in expert mode without its arguments. *)
Theorem C19_custom_call_shown_refuted :
  exists pf t v name i r, hash32 (p_hash pf) /\ good_transaction (p_hash pf) t /\
    x_entry (x_payload t) = Custom name /\ x_target (x_payload t) = XStored i r /\
    xexpert_ok true (p_time pf) (x_payload t) /\ before_args t < 256 /\
    tx_parse pf true (enc_v1 t) = Ret v /\
    forall k it, 0 <= k < getNumItems true v -> tx_getItem pf true 40 (enc_v1 t) v k = Ret it -> ikey it <> text "Args hash".
Proof. exact no_version_refuted. Qed.
Print Assumptions C19_custom_call_shown_refuted.

Example C19_case x t : In t t_calls ->
  good_transaction (p_hash demo) t /\ xexpert_ok x (p_time demo) (x_payload t) /\
  before_args t < 256 /\ exists lines, review (p_hash demo) x t = Some lines.
Proof. exact (call_case x t). Qed.
