(** Property C73: which bytes are accepted as a TransactionV1. *)
From Verif Require Import Base Zxlib Crypto Utils RuntimeArg Deploy DeployUI TxV1 TxV1UI Parser BaseFacts Spec SpecText SpecDeploy SpecTx SpecLayout SpecRaw SpecForm SpecShow Exec Demo Shows ReviewFacts WitDeploy TxShow TxReview FormFacts FormReview FormAccept WitShow WitExact.
Import S SX SF SW.

(** ** C73  The verdict on a form *)
(** The converse of C71 and C72: bytes that begin with the form [u] with the
    numbers [k] (SpecForm, SpecShow) and with the parts of [t] are accepted, and
    reviewed as [t] is, if the hash is that of the payload and [t] has its
    mandatory arguments.  Nothing else is looked at: neither the numbers that
    [numbers_ok] leaves open, nor signatures, nor what follows.  Missing: parts
    without a review in the specification; arguments from byte 256 on (C17); the
    last 64 sizes. *)
Theorem C73_accepted_partial :
  forall pf x data k u t, hash32 (p_hash pf) -> bytes data -> zlen data < 65472 ->
  begins data k u -> depicts k u data t -> presentable t -> args_pos k u < 256 ->
  forall lines, f_hash u = p_hash pf (form_payload k u) -> acceptable (x_payload t) = true ->
  review (p_hash pf) x t = Some lines \/ bare_review (p_hash pf) x t = Some lines -> xexpert_ok x (p_time pf) (x_payload t) ->
  xreviews pf x (1 :: data) lines.
Proof. exact verdict_yes. Qed.
Print Assumptions C73_accepted_partial.
Example C73_case : forall x, exists data k u t lines, bytes data /\ zlen data < 65472 /\ begins data k u /\ zlen data < zlen (form_bytes k u) /\ ~ exact_numbers k u /\
  f_hash u = p_hash demo (form_payload k u) /\ depicts k u data t /\ presentable t /\ acceptable (x_payload t) = true /\
  review (p_hash demo) x t = Some lines /\ xexpert_ok x (p_time demo) (x_payload t) /\ args_pos k u < 256.
Proof. exact cut_case. Qed.
Example C73_case_native : forall x n, exists data k u t lines, bytes data /\ zlen data < 65472 /\ begins data k u /\ f_entry u = Op n /\ ~ exact_numbers k u /\
  f_hash u = p_hash demo (form_payload k u) /\ depicts k u data t /\ presentable t /\ acceptable (x_payload t) = true /\
  review (p_hash demo) x t = Some lines /\ xexpert_ok x (p_time demo) (x_payload t) /\ args_pos k u < 256.
Proof. exact native_case. Qed.

(** ... and otherwise rejected with an error. *)
Theorem C73_rejected_partial :
  forall pf x data k u t, hash32 (p_hash pf) -> bytes data -> zlen data < 65472 ->
  begins data k u -> depicts k u data t -> presentable t -> args_pos k u < 256 ->
  f_hash u <> p_hash pf (form_payload k u) \/ acceptable (x_payload t) = false -> exists c, tx_parse pf x (1 :: data) = Fail c.
Proof. exact verdict_no. Qed.
Print Assumptions C73_rejected_partial.
Example C73_case_empty : forall n, exists data k u t, bytes data /\ zlen data < 65472 /\ begins data k u /\ f_entry u = Op n /\
  f_hash u = p_hash demo (form_payload k u) /\ depicts k u data t /\ presentable t /\ acceptable (x_payload t) = false /\ args_pos k u < 256.
Proof. exact empty_case. Qed.
Example C73_case_wrong : forall n, exists data k u t, bytes data /\ zlen data < 65472 /\ begins data k u /\ f_entry u = Op n /\
  f_hash u <> p_hash demo (form_payload k u) /\ depicts k u data t /\ presentable t /\ acceptable (x_payload t) = true /\ args_pos k u < 256.
Proof. exact wrong_case. Qed.
(** A form with a wrong hash is not accepted, whatever its parts. *)
Theorem C73_hash_partial :
  forall pf x data k u v, hash32 (p_hash pf) -> bytes data -> zlen data < 65472 -> begins data k u ->
  f_hash u <> p_hash pf (form_payload k u) -> tx_parse pf x (1 :: data) <> Ret v.
Proof. exact verdict_hash. Qed.
Print Assumptions C73_hash_partial.

(** Two byte strings with the same hash and payload get the same verdict, and
    the same review but for the number of approvals (the last line in expert
    mode), whatever the outermost table, the approvals and the bytes behind, if
    the hash of arguments that is shown is of bytes in the payload (see
    C72_unsigned_refuted). *)
Theorem C73_outside_partial :
  forall pf x data data' k u k' u' t lines, hash32 (p_hash pf) -> bytes data -> bytes data' -> zlen data < 65472 -> zlen data' < 65472 ->
  begins data k u -> begins data' k' u' -> form_payload k u = form_payload k' u' -> f_hash u = f_hash u' -> inside k u ->
  depicts k u data t -> presentable t -> review (p_hash pf) x t = Some lines \/ bare_review (p_hash pf) x t = Some lines -> xexpert_ok x (p_time pf) (x_payload t) ->
  args_pos k u < 256 -> args_pos k' u' < 256 -> zlen (f_approvals u') < 256 ->
  ((exists v, tx_parse pf x (1 :: data) = Ret v) <-> (exists v, tx_parse pf x (1 :: data') = Ret v)) /\
  ((exists v, tx_parse pf x (1 :: data) = Ret v) ->
   exists lines', xreviews pf x (1 :: data) lines /\ xreviews pf x (1 :: data') lines' /\ if x then removelast lines' = removelast lines else lines' = lines).
Proof. exact outside. Qed.
Print Assumptions C73_outside_partial.
Example C73_case_outside : forall x n, exists data data' k u k' u' t lines, bytes data /\ bytes data' /\ zlen data < 65472 /\ zlen data' < 65472 /\
  begins data k u /\ begins data' k' u' /\ form_payload k u = form_payload k' u' /\ f_hash u = f_hash u' /\ inside k u /\ f_entry u = Op n /\ f_approvals u <> f_approvals u' /\
  depicts k u data t /\ presentable t /\ review (p_hash demo) x t = Some lines /\ xexpert_ok x (p_time demo) (x_payload t) /\
  args_pos k u < 256 /\ args_pos k' u' < 256 /\ zlen (f_approvals u') < 256 /\ (exists v, tx_parse demo x (1 :: data) = Ret v).
Proof. exact twice_case. Qed.
