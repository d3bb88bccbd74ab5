(** Property C60, and more about C10, C44 and C45. *)
From Verif Require Import Base Zxlib Crypto Utils RuntimeArg Deploy DeployUI TxV1 TxV1UI Parser BaseFacts Spec SpecText SpecDeploy SpecTx SpecLook Exec ArgsFacts ReviewFacts Demo DeployCases WitDeploy TxShow TxReview WitTx LookFacts LookTx WitLook LookMore ModeItems ModeTx WitExtra.
Import S ST SD SK.

(** ** C10  The argument hash covers every argument *)
(** False as well for module code with an "auction" argument: when the first
    argument has no name, the hash is that of four zero bytes. *)
Theorem C10_module_hash_refuted :
  exists pf w l1 l2 d1 d2, hash32 (p_hash pf) /\ lookalikes pf d1 d2 /\
    d_session d1 = Module w l1 /\ d_session d2 = Module w l2 /\
    p_hash pf (enc_args l1) <> p_hash pf (enc_args l2) /\
    existsb (is_key "Args hash") (all_items pf true (enc_tx d1)) = true.
Proof. exact module_hash_refuted. Qed.
Print Assumptions C10_module_hash_refuted.

(** ** C44  Custom payment code is not presented as a plain fee *)
(** Payment code is never visible: whatever the code, the review is that of the
    same deploy without code (but for the transaction hash). *)
Theorem C44_payment_unseen :
  forall pf x a b la, hash32 (p_hash pf) -> good_deploy (p_hash pf) a -> good_deploy (p_hash pf) b ->
  expert_ok x (p_time pf) (d_header a) -> expert_ok x (p_time pf) (d_header b) ->
  review (p_hash pf) x a = Some la -> d_session a = d_session b -> same_context (p_time pf) x a b ->
  p_code (d_payment a) = [] -> p_code (d_payment b) <> [] ->
  look_alike pf x (enc_tx a) (enc_tx b).
Proof. exact payment_unseen. Qed.
Print Assumptions C44_payment_unseen.
Example C44_case : forall x,
  let a := mk_pay [] in let b := mk_pay [0; 97; 115; 109; 1; 0; 0; 0] in
  good_deploy (p_hash demo) a /\ good_deploy (p_hash demo) b /\
  expert_ok x (p_time demo) (d_header a) /\ expert_ok x (p_time demo) (d_header b) /\
  (exists la, review (p_hash demo) x a = Some la) /\ d_session a = d_session b /\ same_context (p_time demo) x a b /\
  p_code (d_payment a) = [] /\ p_code (d_payment b) <> [].
Proof. exact payment_case. Qed.

(** ** C45  The contract version shown is the one requested *)
(** In expert mode two calls with different versions, both given, do not look
    alike.  Missing for the full claim: a call without version, which looks
    like version 0 ([C45_version_refuted]). *)
Theorem C45_versions_partial :
  forall pf a b t u ep l ep' l' la lb m n, hash32 (p_hash pf) ->
  good_deploy (p_hash pf) a -> good_deploy (p_hash pf) b ->
  expert_ok true (p_time pf) (d_header a) -> expert_ok true (p_time pf) (d_header b) ->
  d_session a = Stored t ep l -> d_session b = Stored u ep' l' ->
  (exists h k, t = ByHashV h (Some m) /\ u = ByHashV k (Some n)) \/ (exists h k, t = ByNameV h (Some m) /\ u = ByNameV k (Some n)) ->
  review (p_hash pf) true a = Some la -> review (p_hash pf) true b = Some lb -> m <> n ->
  ~ look_alike pf true (enc_tx a) (enc_tx b).
Proof. exact versions_seen. Qed.
Print Assumptions C45_versions_partial.
Example C45_case :
  let a := call_version (Some 1) in let b := call_version (Some 2) in
  good_deploy (p_hash demo) a /\ good_deploy (p_hash demo) b /\
  expert_ok true (p_time demo) (d_header a) /\ expert_ok true (p_time demo) (d_header b) /\
  (exists la, review (p_hash demo) true a = Some la) /\ (exists lb, review (p_hash demo) true b = Some lb).
Proof. exact versions_case. Qed.

(** ** C60  Expert mode shows at least what normal mode shows *)
(** Any bytes accepted as a deploy in expert mode are accepted in normal mode,
    and the items of the normal review appear in the expert review in the same
    order, except items that show "?" ([question]).  Such items exist: see
    [C60_unnamed_case]. *)
Theorem C60_deploys_partial :
  forall pf data v, hash32 (p_hash pf) -> bytes data -> zlen data < 65535 ->
  tx_parse pf true (0 :: data) = Ret (TDeploy v) ->
  exists w (place : Z -> Z), tx_parse pf false (0 :: data) = Ret (TDeploy w) /\
    (forall i j, 0 <= i < j -> j < getNumItems false (TDeploy w) -> place i < place j) /\
    forall i, 0 <= i < getNumItems false (TDeploy w) -> 0 <= place i < getNumItems true (TDeploy v) /\
      forall kl, tx_getItem pf false kl (0 :: data) (TDeploy w) i = Ret question \/
        tx_getItem pf false kl (0 :: data) (TDeploy w) i = tx_getItem pf true kl (0 :: data) (TDeploy v) (place i).
Proof. exact expert_covers_any. Qed.
Print Assumptions C60_deploys_partial.
Example C60_case : forall d, In d kinds ->
  let data := enc_deploy d in enc_tx d = 0 :: data /\ bytes data /\ zlen data < 65535 /\ exists v, tx_parse demo true (0 :: data) = Ret (TDeploy v).
Proof. exact modes_case. Qed.
Example C60_unnamed_case :
  exists v, tx_parse demo false (enc_tx (nameless "delegate" 1)) = Ret v /\
    tx_getItem demo false 40 (enc_tx (nameless "delegate" 1)) v 5 = Ret question /\ tx_getItem demo false 40 (enc_tx (nameless "delegate" 1)) v 6 = Ret question.
Proof. exact unnamed_case. Qed.
(** TransactionV1s with a specified review, whether they run a native
    operation, a stored contract or their own code.  Missing for the full
    claim: transactions without such a review. *)
Theorem C60_v1_partial :
  forall pf t lines, hash32 (p_hash pf) -> SX.good_transaction (p_hash pf) t ->
  (SX.review (p_hash pf) true t = Some lines \/ SX.bare_review (p_hash pf) true t = Some lines) ->
  xexpert_ok true (p_time pf) (SX.x_payload t) -> SX.before_args t < 256 ->
  exists w v (place : Z -> Z), tx_parse pf false (SX.enc_v1 t) = Ret w /\ tx_parse pf true (SX.enc_v1 t) = Ret v /\
    (forall i j, 0 <= i < j -> j < getNumItems false w -> place i < place j) /\
    forall i, 0 <= i < getNumItems false w -> 0 <= place i < getNumItems true v /\
      forall kl, tx_getItem pf false kl (SX.enc_v1 t) w i = tx_getItem pf true kl (SX.enc_v1 t) v (place i).
Proof. exact expert_covers_v1. Qed.
Print Assumptions C60_v1_partial.
Example C60_v1_case : forall t, In t (t_native SX.NTransfer :: t_native SX.NAddReservations :: t_calls) ->
  SX.good_transaction (p_hash demo) t /\ (exists lines, SX.review (p_hash demo) true t = Some lines) /\
  xexpert_ok true (p_time demo) (SX.x_payload t) /\ SX.before_args t < 256.
Proof. exact modes_v1_case. Qed.
(** False in general: a call of a versioned contract without version shows the
    hash of its arguments in normal mode and not in expert mode. *)
Theorem C60_modes_refuted :
  exists pf t w v, hash32 (p_hash pf) /\ SX.good_transaction (p_hash pf) t /\ xexpert_ok true (p_time pf) (SX.x_payload t) /\ SX.before_args t < 256 /\
    tx_parse pf false (SX.enc_v1 t) = Ret w /\ tx_parse pf true (SX.enc_v1 t) = Ret v /\
    (exists i it, 0 <= i < getNumItems false w /\ tx_getItem pf false 40 (SX.enc_v1 t) w i = Ret it /\ ikey it = text "Args hash") /\
    forall k it, 0 <= k < getNumItems true v -> tx_getItem pf true 40 (SX.enc_v1 t) v k = Ret it -> ikey it <> text "Args hash".
Proof. exact modes_refuted. Qed.
Print Assumptions C60_modes_refuted.
