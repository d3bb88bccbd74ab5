(** Property C60 for every accepted TransactionV1. *)
From Verif Require Import Base TxV1 Parser BaseFacts Utils Spec SpecText SpecDeploy SpecTx SpecForm SpecShow SpecHead Demo TxReview ReviewFacts ModeV1 ModeForm WitMode.
Import S SX SF SW SH.

(** ** C60  Expert mode shows at least what normal mode shows *)
(** Any bytes accepted in expert mode as a TransactionV1 with less than 240
    arguments whose versioned target states its version; nothing is asked of
    the form of the bytes.  Missing for the full claim: the two cases refuted,
    [C60_modes_refuted] (no version) and [C60_long_refuted] (the counter of
    items wraps). *)
Theorem C60_v1_any_partial :
  forall pf data v, hash32 (p_hash pf) -> bytes data -> zlen data < 65535 ->
  tx_parse pf true (1 :: data) = Ret (TV1 v) -> num_runtime_args (targs v) < 240 ->
  (ttype (ttarget v) = TargetStoredByPackageHash \/ ttype (ttarget v) = TargetStoredByPackageName -> entity_version (ttarget v) <> NO_ENTITY_VERSION_PRESENT) ->
  exists w (place : Z -> Z), tx_parse pf false (1 :: data) = Ret (TV1 w) /\
    (forall i j, 0 <= i < j -> j < getNumItems false (TV1 w) -> place i < place j) /\
    forall i, 0 <= i < getNumItems false (TV1 w) -> 0 <= place i < getNumItems true (TV1 v) /\
      forall kl, tx_getItem pf false kl (1 :: data) (TV1 w) i = tx_getItem pf true kl (1 :: data) (TV1 v) (place i).
Proof. exact expert_covers_v1_bytes. Qed.
Print Assumptions C60_v1_any_partial.
(** The same in terms of the form the bytes begin with. *)
Theorem C60_v1_form_partial :
  forall pf data k u v, hash32 (p_hash pf) -> bytes data -> len data < 65472 -> begins data k u ->
  tx_parse pf true (1 :: data) = Ret (TV1 v) -> few_args u -> version_known true (f_target u) ->
  exists w (place : Z -> Z), tx_parse pf false (1 :: data) = Ret (TV1 w) /\
    (forall i j, 0 <= i < j -> j < getNumItems false (TV1 w) -> place i < place j) /\
    forall i, 0 <= i < getNumItems false (TV1 w) -> 0 <= place i < getNumItems true (TV1 v) /\
      forall kl, tx_getItem pf false kl (1 :: data) (TV1 w) i = tx_getItem pf true kl (1 :: data) (TV1 v) (place i).
Proof. exact expert_covers_form. Qed.
Print Assumptions C60_v1_form_partial.
Example C60_form_case : exists data k u v, bytes data /\ len data < 65472 /\ begins data k u /\ tx_parse demo true (1 :: data) = Ret (TV1 v) /\ few_args u /\ version_known true (f_target u) /\
  num_runtime_args (targs v) < 240 /\ entity_version (ttarget v) <> NO_ENTITY_VERSION_PRESENT /\ forall t, depicts k u data t -> ~ presentable t.
Proof. exact modes_form_case. Qed.
(** False with more arguments: normal mode shows the amount of a transfer with
    246 further arguments, expert mode does not. *)
Theorem C60_long_refuted :
  exists pf t w v, hash32 (p_hash pf) /\ good_transaction (p_hash pf) t /\ xexpert_ok true (p_time pf) (x_payload t) /\ before_args t < 256 /\
    tx_parse pf false (enc_v1 t) = Ret w /\ tx_parse pf true (enc_v1 t) = Ret v /\
    (exists i it, 0 <= i < getNumItems false w /\ tx_getItem pf false 40 (enc_v1 t) w i = Ret it /\ ikey it = text "Amount") /\
    forall k it, 0 <= k < getNumItems true v -> tx_getItem pf true 40 (enc_v1 t) v k = Ret it -> ikey it <> text "Amount".
Proof. exact modes_long_refuted. Qed.
Print Assumptions C60_long_refuted.
