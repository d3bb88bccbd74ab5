(** Property C72: what is shown of a TransactionV1 in arbitrary bytes. *)
From Verif Require Import Base Zxlib Crypto Utils RuntimeArg Deploy DeployUI TxV1 TxV1UI Parser BaseFacts Spec SpecText SpecDeploy SpecTx SpecLayout SpecRaw SpecForm SpecShow Exec Demo Shows ReviewFacts WitDeploy TxShow TxReview FormFacts FormUnique FormReview FormArgs WitForm WitShow.
Import S SX SF SW.

(** ** C72  The review of an accepted TransactionV1 is that of its parts *)
(** Whatever the redundant numbers, the types of arguments that are not shown,
    the algorithms of the keys, a signature that is cut off and bytes behind:
    if the accepted bytes begin with the form [u] with the numbers [k]
    ([begins], SpecShow), the review is that of a transaction [t] with the parts
    of [u] ([depicts]).  The arguments of a contract call are shown as a hash of
    as many bytes as the section of the arguments says ([digested]).  Missing:
    parts without a review in the specification; arguments from byte 256 on
    (C17); lengths near 2^32; the last 64 sizes. *)
Theorem C72_review_partial :
  forall pf x data v k u t lines, hash32 (p_hash pf) -> bytes data -> zlen data < 65472 -> SL.no_leap data ->
  tx_parse pf x (1 :: data) = Ret (TV1 v) -> begins data k u -> depicts k u data t -> presentable t ->
  review (p_hash pf) x t = Some lines \/ bare_review (p_hash pf) x t = Some lines ->
  xexpert_ok x (p_time pf) (x_payload t) -> args_pos k u < 256 -> xreviews pf x (1 :: data) lines.
Proof. exact begins_review. Qed.
Print Assumptions C72_review_partial.
Example C72_case : forall x, exists data v k u t lines, bytes data /\ zlen data < 65472 /\ SL.no_leap data /\ tx_parse demo x (1 :: data) = Ret (TV1 v) /\
  begins data k u /\ ~ exact_numbers k u /\ ~ strict u /\ depicts k u data t /\ presentable t /\ review (p_hash demo) x t = Some lines /\
  xexpert_ok x (p_time demo) (x_payload t) /\ args_pos k u < 256 /\ plain_types u /\ version_known x (f_target u) /\ (exists name, f_entry u = Custom name).
Proof. exact odd_shown. Qed.

(** Such a form there is, with the hash of its payload ... *)
Theorem C72_form_partial :
  forall pf x data v, hash32 (p_hash pf) -> bytes data -> zlen data < 65472 -> SL.no_leap data -> tx_parse pf x (1 :: data) = Ret (TV1 v) ->
  exists k u, begins data k u /\ f_hash u = p_hash pf (form_payload k u).
Proof. intros pf x data v Hh B L NL H. destruct (form_begins pf x data v Hh B L NL H) as (k & u & Bg & E & _). exact (ex_intro _ k (ex_intro _ u (conj Bg E))). Qed.
Print Assumptions C72_form_partial.
(** ... and only one: the bytes determine parts and numbers (of the approvals,
    the last of which may be cut off, their number). *)
Theorem C72_one_form :
  forall data k u k' u', zlen data < 2 ^ 31 -> begins data k u -> begins data k' u' -> same_form k u k' u'.
Proof. exact form_unique. Qed.
Print Assumptions C72_one_form.

(** A transaction with the parts exists, unless a native operation has an
    argument of an odd type (SpecRaw), or a versioned call without version is
    reviewed in expert mode (C19). *)
Theorem C72_parts_partial :
  forall pf x data v k u, hash32 (p_hash pf) -> bytes data -> zlen data < 65472 -> SL.no_leap data ->
  tx_parse pf x (1 :: data) = Ret (TV1 v) -> begins data k u -> args_pos k u < 256 -> plain_types u ->
  (forall name, f_entry u = Custom name -> version_known x (f_target u)) -> exists t, depicts k u data t.
Proof. exact begins_depicted. Qed.
Print Assumptions C72_parts_partial.

(** C14 on arbitrary bytes: a native operation has named arguments, and (where
    they begin before byte 256) each mandatory one is among them, the first of
    that name of type U512 where this is demanded.  Names are read up to the
    first NUL. *)
Theorem C72_mandatory_partial :
  forall pf x data v k u n, hash32 (p_hash pf) -> bytes data -> zlen data < 65472 -> SL.no_leap data ->
  tx_parse pf x (1 :: data) = Ret (TV1 v) -> begins data k u -> f_entry u = Op n ->
  exists l, f_args u = ANamed l /\ (args_pos k u < 256 ->
    forall name u512, In (name, u512) (mandatory n) -> exists r, first_named (text name) l r /\ (u512 = true -> SL.r_ty r = [8])).
Proof. exact begins_mandatory. Qed.
Print Assumptions C72_mandatory_partial.
Example C72_case_native : forall x n, exists data v k u t lines, bytes data /\ zlen data < 65472 /\ SL.no_leap data /\ tx_parse demo x (1 :: data) = Ret (TV1 v) /\
  begins data k u /\ n_args k <> S.len (argument_bytes (f_args u)) /\ f_entry u = Op n /\ args_pos k u < 256 /\
  depicts k u data t /\ presentable t /\ review (p_hash demo) x t = Some lines /\ xexpert_ok x (p_time demo) (x_payload t).
Proof. exact native_shown. Qed.

(** The bytes under the line "Args hash" are those of the arguments if the
    length of the section is right, and are signed if it does not lead out of
    the payload. *)
Theorem C72_digest_right :
  forall data k u bs l, begins data k u -> digested k u data bs -> f_args u = ANamed l -> n_args k = S.len (argument_bytes (f_args u)) ->
  argument_bytes (f_args u) = 0 :: bs.
Proof. exact digested_right. Qed.
Print Assumptions C72_digest_right.
Theorem C72_digest_signed :
  forall data k u bs, begins data k u -> digested k u data bs -> 1 <= n_args k ->
  args_pos k u - 5 + n_args k <= S.len (heading (n_top k) ++ f_hash u ++ form_payload k u) -> exists a b, form_payload k u = a ++ bs ++ b.
Proof. exact digested_signed. Qed.
Print Assumptions C72_digest_signed.
Example C72_case_digest : exists data k u bs l, begins data k u /\ digested k u data bs /\ f_args u = ANamed l /\ n_args k = S.len (argument_bytes (f_args u)) /\
  1 <= n_args k /\ args_pos k u - 5 + n_args k <= S.len (heading (n_top k) ++ f_hash u ++ form_payload k u).
Proof. exact digest_case. Qed.
(** In full false: the same signed form, with different bytes behind it, is
    accepted with different lines "Args hash". *)
Theorem C72_unsigned_refuted :
  exists pf k u, hash32 (p_hash pf) /\ form_ok u /\ numbers_ok k u /\ strict u /\ f_hash u = p_hash pf (form_payload k u) /\ args_pos k u < 256 /\
  bytes (form_bytes k u) /\
  forall x, exists t a b i, let da := 1 :: form_bytes k u ++ [1] in let db := 1 :: form_bytes k u ++ [2] in
    tx_parse pf x da = Ret t /\ tx_parse pf x db = Ret t /\ 0 <= i < getNumItems x t /\
    tx_getItem pf x 40 da t i = Ret (mkItem (text "Args hash") a) /\ tx_getItem pf x 40 db t i = Ret (mkItem (text "Args hash") b) /\ a <> b.
Proof. exact unsigned_refuted. Qed.
Print Assumptions C72_unsigned_refuted.
