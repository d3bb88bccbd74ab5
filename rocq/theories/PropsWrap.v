(** Property C79: what appears of a TransactionV1, wherever its arguments are. *)
From Verif Require Import Base Zxlib Crypto Utils RuntimeArg Deploy DeployUI TxV1 TxV1UI Parser BaseFacts Spec SpecText SpecDeploy SpecTx SpecLayout SpecRaw SpecForm SpecShow SpecWrap Exec Demo Shows ReviewFacts WitDeploy TxShow TxReview FormFacts FormReview FormArgs FormAccept WitShow WitExact FormSeen App SpecApp AppFacts AppHist SpecHead HeadFacts HeadSeen HeadDeploy HeadPrice WitWrap.
Import S SX SF SW SH SG.

(** ** C79  The arguments that are reviewed are those that are signed *)
(** In full false: a transaction of the format, with right numbers, accepted in
    both modes, of which the hash of other bytes than its arguments is shown. *)
Theorem C79_call_refuted :
  exists pf data k u t, hash32 (p_hash pf) /\ bytes data /\ zlen data < 65472 /\ begins data k u /\ exact_numbers k u /\ strict u /\ f_hash u = p_hash pf (form_payload k u) /\
  depicts k u data t /\ presentable t /\ forall x, xexpert_ok x (p_time pf) (x_payload t) /\ exists lines lines', review (p_hash pf) x t = Some lines /\ xreviews pf x (1 :: data) lines' /\
    exists h h', In (xl "Args hash" (SD.Hex h)) lines /\ In (xl "Args hash" (SD.Hex h')) lines' /\ h <> h'.
Proof. exact far_refuted. Qed.
Print Assumptions C79_call_refuted.

(** What is true, wherever the arguments are and however long the texts: the
    review and the check of mandatory arguments are those of the transaction
    whose arguments stand at the position modulo 256 ([appears], SpecWrap),
    whose texts are cut off at a NUL or after 99 characters, and whose approvals
    are counted modulo 256.  Missing: parts without a review in the
    specification; the last 64 sizes; arguments at that position that are not
    well formed. *)
Theorem C79_accepted_partial :
  forall pf x data k u t, hash32 (p_hash pf) -> bytes data -> zlen data < 65472 -> begins data k u -> appears k u data t ->
  forall lines, f_hash u = p_hash pf (form_payload k u) -> acceptable (x_payload t) = true -> chain_shown x (f_chain u) ->
  review (p_hash pf) x t = Some lines \/ bare_review (p_hash pf) x t = Some lines -> xexpert_ok x (p_time pf) (x_payload t) ->
  xreviews pf x (1 :: data) lines.
Proof. exact seen_yes. Qed.
Print Assumptions C79_accepted_partial.
Example C79_case : forall x, exists data v k u t lines, bytes data /\ zlen data < 65472 /\ SL.no_leap data /\ tx_parse demo x (1 :: data) = Ret (TV1 v) /\ begins data k u /\ exact_numbers k u /\
  (forall n, f_entry u <> Op n) /\ (forall name, f_entry u = Custom name -> version_known x (f_target u)) /\ 256 <= args_pos k u /\ f_hash u = p_hash demo (form_payload k u) /\
  appears k u data t /\ acceptable (x_payload t) = true /\ chain_shown x (f_chain u) /\ review (p_hash demo) x t = Some lines /\ xexpert_ok x (p_time demo) (x_payload t).
Proof. exact far_case. Qed.
Example C79_case_transfer : exists data k u t lines, bytes data /\ zlen data < 65472 /\ begins data k u /\ exact_numbers k u /\ f_entry u = Op NTransfer /\ 256 <= args_pos k u /\
  f_hash u = p_hash demo (form_payload k u) /\ appears k u data t /\ acceptable (x_payload t) = true /\ chain_shown false (f_chain u) /\
  review (p_hash demo) false t = Some lines /\ xexpert_ok false (p_time demo) (x_payload t).
Proof. exact wrap_case. Qed.

(** Without the hash of the payload, or without the mandatory arguments at that
    position, the bytes are rejected with an error ... *)
Theorem C79_rejected_partial :
  forall pf x data k u t, hash32 (p_hash pf) -> bytes data -> zlen data < 65472 -> begins data k u -> appears k u data t ->
  f_hash u <> p_hash pf (form_payload k u) \/ acceptable (x_payload t) = false -> exists c, tx_parse pf x (1 :: data) = Fail c.
Proof. exact seen_no. Qed.
Print Assumptions C79_rejected_partial.
(** ... even if the transfer has all its arguments. *)
Example C79_case_rejected : exists data k u t l, bytes data /\ zlen data < 65472 /\ begins data k u /\ exact_numbers k u /\ f_entry u = Op NTransfer /\ f_args u = ANamed (List.map raw_of l) /\
  complete (Op NTransfer) (Named l) = true /\ f_hash u = p_hash demo (form_payload k u) /\ appears k u data t /\ acceptable (x_payload t) = false.
Proof. exact wrap_missing. Qed.

(** Hence on accepted bytes nothing has to be known of hash and arguments. *)
Theorem C79_reviewed_partial :
  forall pf x data k u t, hash32 (p_hash pf) -> bytes data -> zlen data < 65472 -> begins data k u -> appears k u data t ->
  forall v lines, tx_parse pf x (1 :: data) = Ret v -> chain_shown x (f_chain u) ->
  review (p_hash pf) x t = Some lines \/ bare_review (p_hash pf) x t = Some lines -> xexpert_ok x (p_time pf) (x_payload t) ->
  f_hash u = p_hash pf (form_payload k u) /\ acceptable (x_payload t) = true /\ xreviews pf x (1 :: data) lines.
Proof. exact seen_accepted. Qed.
Print Assumptions C79_reviewed_partial.
(** Of accepted code and calls such a transaction exists. *)
Theorem C79_there_partial :
  forall pf x data v k u, hash32 (p_hash pf) -> bytes data -> zlen data < 65472 -> SL.no_leap data -> tx_parse pf x (1 :: data) = Ret (TV1 v) -> begins data k u ->
  (forall n, f_entry u <> Op n) -> (forall name, f_entry u = Custom name -> version_known x (f_target u)) -> exists t, appears k u data t.
Proof. exact begins_seen. Qed.
Print Assumptions C79_there_partial.

(** With arguments before byte 256 and texts that fit it is the transaction
    itself that appears, as in C73. *)
Theorem C79_below :
  forall pf x data k u t, hash32 (p_hash pf) -> bytes data -> zlen data < 65472 -> begins data k u -> depicts k u data t -> presentable t -> args_pos k u < 256 ->
  appears k u data t /\ chain_shown x (f_chain u).
Proof. exact seen_below. Qed.
Print Assumptions C79_below.

(** The first lines need no condition at all but less than 240 arguments (C18):
    of the chain name what is left of its first [len mod 256] bytes before a
    NUL, everything else as it is. *)
Theorem C79_heading :
  forall pf x kl data k u v i l, hash32 (p_hash pf) -> bytes data -> zlen data < 65472 -> begins data k u -> tx_parse pf x (1 :: data) = Ret (TV1 v) ->
  few_args u -> nth_error (seen_head x u) i = Some l ->
  Z.of_nat i < getNumItems x (TV1 v) /\ exists it, tx_getItem pf x kl (1 :: data) (TV1 v) (Z.of_nat i) = Ret it /\ xshows (p_hash pf) (p_time pf) l it.
Proof. exact heading_any. Qed.
Print Assumptions C79_heading.
Example C79_case_heading : exists data v k u, bytes data /\ zlen data < 65472 /\ begins data k u /\ tx_parse demo false (1 :: data) = Ret (TV1 v) /\ few_args u /\ S.len (f_chain u) = 262.
Proof. exact wrap_heading. Qed.

(** In every history, when a TransactionV1 is signed. *)
Theorem C79_signed_partial :
  forall d s tr1 e st q pre tr2 v, device_ok d -> reach d s (tr1 ++ (e, st, Signed q pre) :: tr2) -> pending st = Some (RTx (TV1 v)) -> flash_size d <= 65472 ->
  exists data, tx_data (bufs st) = 1 :: data /\ forall k u, begins data k u ->
    pre = f_hash u /\ f_hash u = p_hash (plat d) (form_payload k u) /\
    (few_args u -> forall i l kl, nth_error (seen_head (expert_mode st) u) i = Some l -> Z.of_nat i < review_count st (RTx (TV1 v)) /\
     exists it, review_item d st (RTx (TV1 v)) kl (Z.of_nat i) = Ret it /\ xshows (p_hash (plat d)) (p_time (plat d)) l it) /\
    forall t lines, appears k u data t -> chain_shown (expert_mode st) (f_chain u) ->
     review (p_hash (plat d)) (expert_mode st) t = Some lines \/ bare_review (p_hash (plat d)) (expert_mode st) t = Some lines -> xexpert_ok (expert_mode st) (p_time (plat d)) (x_payload t) ->
     acceptable (x_payload t) = true /\ review_count st (RTx (TV1 v)) = zlen lines /\
     forall i l kl, nth_error lines i = Some l -> exists it, review_item d st (RTx (TV1 v)) kl (Z.of_nat i) = Ret it /\ xshows (p_hash (plat d)) (p_time (plat d)) l it.
Proof. exact signed_seen. Qed.
Print Assumptions C79_signed_partial.
Example C79_case_signed : forall x : bool, exists d s tr1 e st q pre tr2 v data k u t lines, device_ok d /\ reach d s (tr1 ++ (e, st, Signed q pre) :: tr2) /\ pending st = Some (RTx (TV1 v)) /\
  flash_size d <= 65472 /\ expert_mode st = x /\ tx_data (bufs st) = 1 :: data /\ begins data k u /\ few_args u /\ 256 <= args_pos k u /\ appears k u data t /\ chain_shown (expert_mode st) (f_chain u) /\
  review (p_hash (plat d)) (expert_mode st) t = Some lines /\ xexpert_ok (expert_mode st) (p_time (plat d)) (x_payload t).
Proof. exact far_signed. Qed.

(** In expert mode also the price, if the chain name is shorter than 256 bytes
    (C51); that a Classic payment is below 10^19 follows from acceptance. *)
Theorem C79_price :
  forall pf kl data k u v i l, hash32 (p_hash pf) -> bytes data -> zlen data < 65472 -> begins data k u -> tx_parse pf true (1 :: data) = Ret (TV1 v) ->
  few_args u -> S.len (f_chain u) < 256 -> nth_error (price_lines (f_price u)) i = Some l ->
  6 + Z.of_nat i < getNumItems true (TV1 v) /\ exists it, tx_getItem pf true kl (1 :: data) (TV1 v) (6 + Z.of_nat i) = Ret it /\ xshows (p_hash pf) (p_time pf) l it.
Proof. exact price_shown. Qed.
Print Assumptions C79_price.
Example C79_case_price : exists data v k u, bytes data /\ zlen data < 65472 /\ begins data k u /\ tx_parse demo true (1 :: data) = Ret (TV1 v) /\ few_args u /\ S.len (f_chain u) < 256 /\ exists a g s, f_price u = PClassic a g s.
Proof. exact price_case. Qed.

(** ** C76  The lines of the header and the fee of any accepted deploy *)
(** Of the chain name, which may be any, what is before its first NUL. *)
Theorem C76_deploy_heading :
  forall pf x kl data h dh w y more v i l, hash32 (p_hash pf) -> bytes data -> zlen data < 65535 ->
  data = SD.enc_header h ++ dh ++ enc_fee w y ++ more -> zlen dh = 32 -> form_header h ->
  tx_parse pf x (0 :: data) = Ret (TDeploy v) -> In (i, l) (deploy_head x (seen_header h) dh (fee_line y)) ->
  dh = p_hash pf (SD.enc_header h) /\ i < getNumItems x (TDeploy v) /\
  exists it, tx_getItem pf x kl (0 :: data) (TDeploy v) i = Ret it /\ shows (p_hash pf) (p_time pf) l it.
Proof. exact deploy_heading_seen. Qed.
Print Assumptions C76_deploy_heading.
Theorem C76_signed_heading :
  forall d s tr1 e st q pre tr2 v, device_ok d -> reach d s (tr1 ++ (e, st, Signed q pre) :: tr2) -> pending st = Some (RTx (TDeploy v)) ->
  exists data, tx_data (bufs st) = 0 :: data /\ forall h dh w y more, data = SD.enc_header h ++ dh ++ enc_fee w y ++ more -> zlen dh = 32 -> form_header h ->
    pre = dh /\ dh = p_hash (plat d) (SD.enc_header h) /\
    forall i l kl, In (i, l) (deploy_head (expert_mode st) (seen_header h) dh (fee_line y)) -> i < review_count st (RTx (TDeploy v)) /\
     exists it, review_item d st (RTx (TDeploy v)) kl i = Ret it /\ shows (p_hash (plat d)) (p_time (plat d)) l it.
Proof. exact signed_deploy_any. Qed.
Print Assumptions C76_signed_heading.
(** A deploy that is signed although its chain name, with a NUL in it, is shown
    as casper. *)
Theorem C76_chain_refuted : forall x : bool, exists d s tr1 e st q pre tr2 v data h dh w y more,
  device_ok d /\ reach d s (tr1 ++ (e, st, Signed q pre) :: tr2) /\ pending st = Some (RTx (TDeploy v)) /\
  tx_data (bufs st) = 0 :: data /\ data = SD.enc_header h ++ dh ++ enc_fee w y ++ more /\ zlen dh = 32 /\ form_header h /\
  expert_mode st = x /\ SD.h_chain h = text "casper" ++ 0 :: text "-test" /\
  forall kl, exists it, review_item d st (RTx (TDeploy v)) kl 2 = Ret it /\ shows (p_hash (plat d)) (p_time (plat d)) (SD.ln "Chain ID" (SD.Text (text "casper"))) it.
Proof. exact nul_signed. Qed.
Print Assumptions C76_chain_refuted.
