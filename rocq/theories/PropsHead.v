(** Property C76: the heading of every accepted transaction. *)
From Verif Require Import Base Zxlib Crypto Utils RuntimeArg Deploy DeployUI TxV1 TxV1UI Parser App BaseFacts Spec SpecText SpecDeploy SpecTx SpecLayout SpecRaw SpecForm SpecShow SpecHead SpecApp Exec Demo Shows ReviewFacts WitDeploy TxShow AppFacts AppHist HeadFacts HeadClear WitHead.
Import S SX SF SW SH.

(** ** C76  The heading is shown as it is *)
(** Any bytes beginning with the form of a TransactionV1: no condition on
    target, entry point, arguments below 240 (C18), redundant numbers or what
    follows.  Missing for the full claim: chain names above 99 bytes or with a
    NUL (C51, C52), and in expert mode Classic payments from 10^19 on. *)
Theorem C76_v1_partial :
  forall pf x kl data k u v i l, hash32 (p_hash pf) -> bytes data -> zlen data < 65472 -> begins data k u -> tx_parse pf x (1 :: data) = Ret (TV1 v) ->
  few_args u -> form_plain x u -> nth_error (form_head x u) i = Some l ->
  Z.of_nat i < getNumItems x (TV1 v) /\ exists it, tx_getItem pf x kl (1 :: data) (TV1 v) (Z.of_nat i) = Ret it /\ xshows (p_hash pf) (p_time pf) l it.
Proof. exact v1_heading_all. Qed.
Print Assumptions C76_v1_partial.
(** With any number of arguments: those of the lines that are part of the review. *)
Theorem C76_v1_many_partial :
  forall pf x kl data k u v i l, hash32 (p_hash pf) -> bytes data -> zlen data < 65472 -> begins data k u -> tx_parse pf x (1 :: data) = Ret (TV1 v) ->
  form_clear x (p_time pf) u -> nth_error (form_head x u) i = Some l -> Z.of_nat i < getNumItems x (TV1 v) ->
  exists it, tx_getItem pf x kl (1 :: data) (TV1 v) (Z.of_nat i) = Ret it /\ xshows (p_hash pf) (p_time pf) l it.
Proof. exact v1_heading. Qed.
Print Assumptions C76_v1_many_partial.

(** The lines are part of the review unless there are 240 arguments (C18). *)
Theorem C76_v1_there :
  forall pf x data k u v, hash32 (p_hash pf) -> bytes data -> zlen data < 65472 -> begins data k u -> tx_parse pf x (1 :: data) = Ret (TV1 v) ->
  few_args u -> zlen (form_head x u) <= getNumItems x (TV1 v).
Proof. exact v1_heading_there. Qed.
Print Assumptions C76_v1_there.

(** Any bytes beginning with header, 32 bytes and payment of a deploy, whatever
    the value of the amount: the lines are always part of the review.  Missing
    for the full claim: the chain names above, and of the fee, which is false
    ([C76_fee_refuted]), the digits above 256. *)
Theorem C76_deploy_partial :
  forall pf x kl data h dh w y more v i l, hash32 (p_hash pf) -> bytes data -> zlen data < 65535 ->
  data = SD.enc_header h ++ dh ++ enc_fee w y ++ more -> zlen dh = 32 -> SD.good_header h ->
  tx_parse pf x (0 :: data) = Ret (TDeploy v) -> In (i, l) (deploy_head x h dh (fee_line y)) ->
  dh = p_hash pf (SD.enc_header h) /\ i < getNumItems x (TDeploy v) /\
  exists it, tx_getItem pf x kl (0 :: data) (TDeploy v) i = Ret it /\ shows (p_hash pf) (p_time pf) l it.
Proof. exact deploy_heading_shown. Qed.
Print Assumptions C76_deploy_partial.
(** A fee of 10^256 + 2500000000 motes in 107 bytes, which is no U512, is shown
    as 2 500 000 000 motes. *)
Theorem C76_fee_refuted : exists pf h w y more, hash32 (p_hash pf) /\ SD.good_header h /\ value (tl y) = 10 ^ 256 + 2500000000 /\
  let data := SD.enc_header h ++ p_hash pf (SD.enc_header h) ++ enc_fee w y ++ more in
  bytes data /\ zlen data < 65535 /\
  forall x kl, exists v, tx_parse pf x (0 :: data) = Ret (TDeploy v) /\
    exists it, tx_getItem pf x kl (0 :: data) (TDeploy v) (if x then 8 else 4) = Ret it /\ shows (p_hash pf) (p_time pf) (SD.ln "Fee" (SD.Motes 2500000000)) it.
Proof. exact vast_refuted. Qed.
Print Assumptions C76_fee_refuted.

(** In every history, when a transaction is signed. *)
Theorem C76_signed_v1 :
  forall d s tr1 e st q pre tr2 v, device_ok d -> reach d s (tr1 ++ (e, st, Signed q pre) :: tr2) -> pending st = Some (RTx (TV1 v)) -> flash_size d <= 65472 ->
  exists data, tx_data (bufs st) = 1 :: data /\ forall k u, begins data k u ->
    pre = f_hash u /\ f_hash u = p_hash (plat d) (form_payload k u) /\
    (few_args u -> zlen (form_head (expert_mode st) u) <= review_count st (RTx (TV1 v))) /\
    (few_args u -> form_plain (expert_mode st) u -> forall i l kl, nth_error (form_head (expert_mode st) u) i = Some l ->
     exists it, review_item d st (RTx (TV1 v)) kl (Z.of_nat i) = Ret it /\ xshows (p_hash (plat d)) (p_time (plat d)) l it).
Proof. exact signed_heading_v1. Qed.
Print Assumptions C76_signed_v1.
(** A call without a review in the specification, in both modes. *)
Example C76_case_v1 : forall x : bool, exists d s tr1 e st q pre tr2 v data k u,
  device_ok d /\ reach d s (tr1 ++ (e, st, Signed q pre) :: tr2) /\ pending st = Some (RTx (TV1 v)) /\ flash_size d <= 65472 /\
  tx_data (bufs st) = 1 :: data /\ begins data k u /\ few_args u /\ form_plain (expert_mode st) u /\ expert_mode st = x /\ forall t, depicts k u data t -> ~ presentable t.
Proof. exact heading_case_v1. Qed.

Theorem C76_signed_deploy :
  forall d s tr1 e st q pre tr2 v, device_ok d -> reach d s (tr1 ++ (e, st, Signed q pre) :: tr2) -> pending st = Some (RTx (TDeploy v)) ->
  exists data, tx_data (bufs st) = 0 :: data /\ forall h dh w y more, data = SD.enc_header h ++ dh ++ enc_fee w y ++ more -> zlen dh = 32 -> SD.good_header h ->
    pre = dh /\ dh = p_hash (plat d) (SD.enc_header h) /\
    forall i l kl, In (i, l) (deploy_head (expert_mode st) h dh (fee_line y)) -> i < review_count st (RTx (TDeploy v)) /\
     exists it, review_item d st (RTx (TDeploy v)) kl i = Ret it /\ shows (p_hash (plat d)) (p_time (plat d)) l it.
Proof. exact signed_heading_deploy. Qed.
Print Assumptions C76_signed_deploy.
(** A deploy in which no session is encoded. *)
Example C76_case_deploy : exists d s tr1 e st q pre tr2 v data h dh w y more,
  device_ok d /\ reach d s (tr1 ++ (e, st, Signed q pre) :: tr2) /\ pending st = Some (RTx (TDeploy v)) /\
  tx_data (bufs st) = 0 :: data /\ data = SD.enc_header h ++ dh ++ enc_fee w y ++ more /\ zlen dh = 32 /\ SD.good_header h /\
  expert_mode st = true /\ exists ses n, more = ses ++ le 4 n /\ forall i, ses <> SD.enc_session i.
Proof. exact heading_case_deploy. Qed.
