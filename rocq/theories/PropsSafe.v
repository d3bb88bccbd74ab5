(** Properties C28 to C30: memory accesses.  [Undef OobRead] and [Undef OobWrite]
    are the outcomes of a read outside the supplied bytes and of a write outside
    a buffer. *)
From Verif Require Import Base Zxlib Crypto Utils RuntimeArg Deploy DeployUI TxV1 TxV1UI Parser BaseFacts Spec SpecText SpecDeploy SpecTx SpecLayout Exec TextFacts Demo BindCases WitDeploy WitBind OklFacts WitTx WitSafe TxAccept DeploySafe.
Import S SD SX SL.

(** ** C28  Parsing never leaves the buffer: TransactionV1 *)
Theorem C28_parse_defined :
  forall pf x data u, hash32 (p_hash pf) -> bytes data -> zlen data < 65535 -> parser_parse pf x (1 :: data) <> Undef u.
Proof. exact parse_defined. Qed.
Print Assumptions C28_parse_defined.
Example C28_case n : bytes (enc_transaction (t_native n)) /\ zlen (enc_transaction (t_native n)) < 65535.
Proof. destruct (tables_case n) as (d & v & E & B & L & _). injection E as <-. exact (conj B L). Qed.

(** ** C29  Parsing never leaves the buffer: Deploy *)
(** [long_word data p w]: the four bytes at [p] are a number [w] above 100 or
    above what is left of the data.  Parsing leaves the buffers only if the
    session, which starts where the payment ends, is of the module-bytes kind
    (tag 0), and such a number is the length of the string that is the value of
    an argument "auction" ([auction_word]), or stands where the arguments of the
    module end ([module_end]), which is the place of the number of approvals. *)
Theorem C29_only_modules_partial :
  forall pf x data u, hash32 (p_hash pf) -> bytes data -> zlen data < 65535 ->
  parser_parse pf x (0 :: data) = Undef u ->
  exists h pay q p w, read_payment (ctx_of pf x false 40 data (zlen data)) (u16 (header_length_deploy h + 32)) = (Ret pay, q) /\
    here data q [0] /\ long_word data p w /\
    (auction_word data p \/ module_end (ctx_of pf x false 40 data (zlen data)) (q + 1) p).
Proof. exact parse_deploy_undef. Qed.
Print Assumptions C29_only_modules_partial.

(** In general false: an accepted deploy of a module, once it has 101 approvals,
    overflows a local buffer; ... *)
Theorem C29_approvals_refuted :
  exists pf d more, hash32 (p_hash pf) /\ good_deploy (p_hash pf) d /\ Forall good_approval more /\ zlen more = 101 /\
    forall x, accepted pf x (enc_tx d) /\
      parser_parse pf x (enc_tx (SD.Deploy (d_header d) (d_hash d) (d_payment d) (d_session d) more)) = Undef OobWrite.
Proof. exact approvals_refuted. Qed.
Print Assumptions C29_approvals_refuted.
(** ... and a well-formed one is read past its end. *)
Theorem C29_auction_refuted :
  exists pf d, hash32 (p_hash pf) /\ good_deploy (p_hash pf) d /\ forall x, parser_parse pf x (enc_tx d) = Undef OobRead.
Proof. exact auction_refuted. Qed.
Print Assumptions C29_auction_refuted.

(** ** C30  Displaying never leaves the buffer *)
(** Once accepted, every item can be displayed, into a key buffer of any size. *)
Theorem C30_accepted_deploy :
  forall pf x kl data v idx u, hash32 (p_hash pf) -> bytes data -> zlen data < 65535 ->
  tx_parse pf x (0 :: data) = Ret (TDeploy v) -> 0 <= idx -> tx_getItem pf x kl (0 :: data) (TDeploy v) idx <> Undef u.
Proof. exact deploy_items_defined. Qed.
Print Assumptions C30_accepted_deploy.
Theorem C30_accepted_v1 :
  forall pf x kl data v idx u, zlen data < 65535 ->
  tx_parse pf x (1 :: data) = Ret (TV1 v) -> 0 <= idx -> tx_getItem pf x kl (1 :: data) (TV1 v) idx <> Undef u.
Proof. exact v1_items_defined. Qed.
Print Assumptions C30_accepted_v1.

(** But acceptance is itself decided by displaying every item, which can leave
    the buffers: a well-formed call of a contract is read past its end ... *)
Theorem C30_v1_refuted :
  exists pf t, hash32 (p_hash pf) /\ good_transaction (p_hash pf) t /\ (exists v, parser_parse pf false (enc_v1 t) = Ret v) /\
    tx_parse pf false (enc_v1 t) = Undef OobRead.
Proof. exact oob_refuted. Qed.
Print Assumptions C30_v1_refuted.
(** ... a well-formed transfer with a target of 150 bytes overflows a buffer ... *)
Theorem C30_key_refuted :
  exists pf d, hash32 (p_hash pf) /\ good_deploy (p_hash pf) d /\
    forall x, (exists v, parser_parse pf x (enc_tx d) = Ret v) /\ tx_parse pf x (enc_tx d) = Undef OobWrite.
Proof. exact key_refuted. Qed.
Print Assumptions C30_key_refuted.
(** ... so does a module of 33 bytes ... *)
Theorem C30_code_refuted :
  exists pf d w args, hash32 (p_hash pf) /\ d_session d = Module w args /\ zlen w = 33 /\ Forall good_arg args /\
    good_header (d_header d) /\ d_hash d = p_hash pf (enc_header (d_header d)) /\ h_bodyhash (d_header d) = p_hash pf (enc_body d) /\
    bytes (enc_tx d) /\ zlen (enc_tx d) < 65536 /\
    forall x, (exists v, parser_parse pf x (enc_tx d) = Ret v) /\ tx_parse pf x (enc_tx d) = Undef OobWrite.
Proof. exact code_refuted. Qed.
Print Assumptions C30_code_refuted.
(** ... and 97 bytes make the device hash 65505. *)
Theorem C30_header_refuted :
  exists pf data, hash32 (p_hash pf) /\ bytes data /\ zlen data = 97 /\
    forall x, (exists v, parser_parse pf x (0 :: data) = Ret (TDeploy v) /\ header_length_deploy (dheader v) = 65505) /\
      tx_parse pf x (0 :: data) = Undef OobRead.
Proof. exact header_refuted. Qed.
Print Assumptions C30_header_refuted.

(** The only causes.  For a TransactionV1, displaying an item of a parsed
    transaction; for a deploy, also parsing (C29) and a header length beyond
    the end of the data. *)
Theorem C30_v1_cause_partial :
  forall pf x data u, hash32 (p_hash pf) -> bytes data -> zlen data < 65535 ->
  tx_parse pf x (1 :: data) = Undef u ->
  exists v idx, parser_parse pf x (1 :: data) = Ret (TV1 v) /\ 0 <= idx < getNumItems x (TV1 v) /\
    forall kl, tx_getItem pf x kl (1 :: data) (TV1 v) idx = Undef u.
Proof. exact undef_from_item. Qed.
Print Assumptions C30_v1_cause_partial.
Theorem C30_deploy_cause_partial :
  forall pf x data u, hash32 (p_hash pf) -> bytes data -> zlen data < 65535 ->
  tx_parse pf x (0 :: data) = Undef u ->
  parser_parse pf x (0 :: data) = Undef u \/
  exists v, parser_parse pf x (0 :: data) = Ret (TDeploy v) /\
    (zlen data < header_length_deploy (dheader v) + 32 \/
     exists idx, 0 <= idx < getNumItems x (TDeploy v) /\ tx_getItem pf x 40 (0 :: data) (TDeploy v) idx = Undef u).
Proof. exact deploy_undef_from. Qed.
Print Assumptions C30_deploy_cause_partial.

Example C30_case x : exists v,
  hash32 (p_hash demo) /\ bytes plain_tx /\ zlen plain_tx < 65535 /\ tx_parse demo x (0 :: plain_tx) = Ret (TDeploy v).
Proof. destruct (raw_ok_ok _ _ (plain_ok x)) as (B & L & v & P). exists v. exact (conj demo_hash32 (conj B (conj L P))). Qed.
