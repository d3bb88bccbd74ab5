(** Properties C31, C40 and C41: expert mode, appended data, the cursor. *)
From Verif Require Import Base Zxlib Crypto Utils RuntimeArg Deploy DeployUI TxV1 TxV1UI Parser BaseFacts Spec SpecText SpecDeploy SpecTx Exec TextFacts Demo BindCases WitDeploy WitBind OklFacts WitTx SpecApp App AppFacts AppHist AppClaims AppSign WitApp ExtTx ModeFacts MoreSign SpecLayout TxAccept WitMore.
Import S SX.

(** ** C31  Expert mode does not change what is parsed *)
(** [fields] forgets the numbers of screens (UI_fixed_items, UI_runtime_items,
    numItems) of a parsed transaction, and nothing else. *)
Theorem C31_same_fields :
  forall pf x y data, fields (parser_parse pf x data) = fields (parser_parse pf y data).
Proof. exact same_fields. Qed.
Print Assumptions C31_same_fields.
Example C31_case : exists v w, parser_parse demo true (SD.enc_tx d_transfer4) = Ret (TDeploy v) /\ parser_parse demo false (SD.enc_tx d_transfer4) = Ret (TDeploy w) /\
  UI_runtime_items (session v) <> UI_runtime_items (session w).
Proof. exact modes_case. Qed.

(** The check that follows parsing (parser_validate) does depend on the mode:
    a time to live of thirty days is refused in expert mode only. *)
Theorem C31_validation_refuted :
  exists pf d t, hash32 (p_hash pf) /\ SD.good_deploy (p_hash pf) d /\ good_transaction (p_hash pf) t /\
    accepted pf false (SD.enc_tx d) /\ accepted pf false (enc_v1 t) /\
    tx_parse pf true (SD.enc_tx d) = Fail 13 /\ tx_parse pf true (enc_v1 t) = Fail 13.
Proof. exact month_refuted. Qed.
Print Assumptions C31_validation_refuted.

(** ** C40  Data after the session does not change the signature *)
Theorem C40_v1_parsed :
  forall pf x data post v, zlen (data ++ post) < 65535 ->
  parser_parse pf x (1 :: data) = Ret v -> parser_parse pf x (1 :: data ++ post) = Ret v.
Proof. exact v1_parse_more. Qed.
Print Assumptions C40_v1_parsed.
(** The review too.  [fee_screen]: screens 6 and 7 of expert mode, Payment and
    Max gas, which show "?" instead of an error. *)
Theorem C40_v1_review :
  forall pf x data post v, zlen (data ++ post) < 65535 ->
  tx_parse pf x (1 :: data) = Ret (TV1 v) ->
  (forall idx it, fee_screen x idx = true -> tx_getItem pf x 40 (1 :: data) (TV1 v) idx = Ret it -> ival it <> VDirect (S.text "?")) ->
  tx_parse pf x (1 :: data ++ post) = Ret (TV1 v) /\
  forall kl idx it, 0 <= idx -> tx_getItem pf x kl (1 :: data) (TV1 v) idx = Ret it -> tx_getItem pf x kl (1 :: data ++ post) (TV1 v) idx = Ret it.
Proof. exact v1_more. Qed.
Print Assumptions C40_v1_review.
Theorem C40_deploy :
  forall pf x data post v, hash32 (p_hash pf) -> bytes data -> zlen (data ++ post) < 65535 ->
  tx_parse pf x (0 :: data) = Ret (TDeploy v) -> dtype (session v) <> ModuleBytes ->
  tx_parse pf x (0 :: data ++ post) = Ret (TDeploy v) /\
  forall kl idx it, tx_getItem pf x kl (0 :: data) (TDeploy v) idx = Ret it -> tx_getItem pf x kl (0 :: data ++ post) (TDeploy v) idx = Ret it.
Proof. exact deploy_more. Qed.
Print Assumptions C40_deploy.
(** What is signed is the same in two histories of a device in which one
    transaction, of any kind, continues the other. *)
Theorem C40_digest :
  forall d s1 s2 a1 e1 st1 p1 pre1 b1 a2 e2 st2 p2 pre2 b2 t1 t2 post, device_ok d ->
  reach d s1 (a1 ++ (e1, st1, Signed p1 pre1) :: b1) -> pending st1 = Some (RTx t1) ->
  reach d s2 (a2 ++ (e2, st2, Signed p2 pre2) :: b2) -> pending st2 = Some (RTx t2) ->
  tx_data (bufs st2) = tx_data (bufs st1) ++ post -> pre2 = pre1.
Proof. exact signed_more. Qed.
Print Assumptions C40_digest.
Example C40_v1_case x n : exists v, tx_parse demo x (enc_v1 (t_native n)) = Ret (TV1 v) /\ zlen (enc_transaction (t_native n) ++ [1; 2; 3]) < 65535 /\
  (forall idx it, fee_screen x idx = true -> tx_getItem demo x 40 (enc_v1 (t_native n)) (TV1 v) idx = Ret it -> ival it <> VDirect (S.text "?")).
Proof. exact (v1_more_case x n). Qed.
Example C40_deploy_case x : exists v, tx_parse demo x (SD.enc_tx d_transfer) = Ret (TDeploy v) /\ dtype (session v) <> ModuleBytes /\
  bytes (SD.enc_deploy d_transfer) /\ zlen (SD.enc_deploy d_transfer ++ [1; 2; 3]) < 65535.
Proof. exact (deploy_more_case x). Qed.
Example C40_digest_case : exists s1 s2 a1 a2 st1 st2 p pre t1 t2,
  device_ok dev /\ reach dev s1 (a1 ++ [(Approve true, st1, Signed p pre)]) /\ pending st1 = Some (RTx t1) /\
  reach dev s2 (a2 ++ [(Approve true, st2, Signed p pre)]) /\ pending st2 = Some (RTx t2) /\
  tx_data (bufs st2) = tx_data (bufs st1) ++ [1; 2; 3].
Proof. exact more_history. Qed.

(** ** C41  Parsing only moves forward *)
(** False: an argument takes at least nine bytes, and yet there can be more
    arguments than bytes; a value length near 2^32 leads back. *)
Theorem C41_backwards_refuted :
  exists pf data v, hash32 (p_hash pf) /\ bytes data /\ tx_parse pf true (1 :: data) = Ret (TV1 v) /\
    bytes_repr (targs v) = false /\ zlen data < num_runtime_args (targs v).
Proof. exact backwards_refuted. Qed.
Print Assumptions C41_backwards_refuted.

(** When no four bytes of the data are a number of at least 2^32 - 65536, and
    the data is not within 64 bytes of the 16-bit limit, every section of an
    accepted TransactionV1 lies behind the one before it, and its arguments lie
    one after the other between the count and the target. *)
Theorem C41_forward_partial :
  forall pf x data v, hash32 (p_hash pf) -> bytes data -> zlen data < 65472 -> SL.no_leap data ->
  parser_parse pf x (1 :: data) = Ret v ->
  exists top pay b a t s tt et c, SL.layout_at data top pay b a t s tt et c /\ SL.forward top pay b a t s c /\
    ((exists l, SL.here data (b + 10) (0 :: le 4 (zlen l)) /\ SL.laid data (b + 15) l /\ a = SL.after (b + 15) l) \/
     exists n, SL.here data (b + 10) (1 :: le 4 n)).
Proof. exact forward_any. Qed.
Print Assumptions C41_forward_partial.
Example C41_case n : exists data v, 1 :: data = enc_v1 (t_native n) /\ bytes data /\ zlen data < 65472 /\ SL.no_leap data /\
  parser_parse demo true (1 :: data) = Ret v.
Proof. exact (forward_case n). Qed.
