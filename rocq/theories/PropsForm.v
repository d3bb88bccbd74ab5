(** Property C71: TransactionV1s in arbitrary bytes. *)
From Verif Require Import Base Zxlib Crypto Utils RuntimeArg Deploy DeployUI TxV1 TxV1UI Parser BaseFacts Spec SpecText SpecDeploy SpecTx SpecLayout SpecRaw SpecForm Exec Demo Shows ReviewFacts TxShow TxReview WitDeploy WitTx LookFacts WitLook WitRaw FormFacts FormShow WitForm.
Import S SX SF.

(** ** C71  An accepted TransactionV1 is a transaction *)
(** Arbitrary bytes that are accepted are the parts of a transaction, one
    behind the other in the order of the format, with the redundant numbers [k]
    (counts, offsets, sizes, lengths of sections) between them, and bytes [rest]
    behind; or such a form of which up to 64 bytes at the end, part of the last
    signature, are missing ([cut]).  The hash is that of the payload with these
    numbers.  [numbers_ok] and [form_ok] (SpecForm) say which numbers and parts
    are possible.  If the numbers are right and the parts those of the format
    ([strict]) the bytes are the encoding of a transaction, and the review is
    its review where the specification gives one.  Missing for the full claim,
    which is false ([C71_numbers_refuted], [C71_args_hash_refuted]): right
    numbers; lengths near 2^32 ([no_leap]); the last 64 sizes; arguments from
    byte 256 on (C17). *)
Theorem C71_form_partial :
  forall pf x data v, hash32 (p_hash pf) -> bytes data -> zlen data < 65472 -> SL.no_leap data ->
  tx_parse pf x (1 :: data) = Ret (TV1 v) ->
  exists k u rest cut, data ++ cut = form_bytes k u ++ rest /\ (cut = [] \/ rest = []) /\ missing (f_approvals u) cut /\
    form_ok u /\ numbers_ok k u /\ f_hash u = p_hash pf (form_payload k u) /\
    (cut = [] -> exact_numbers k u -> strict u ->
     exists t, data = enc_transaction t ++ rest /\ form_transaction t /\ x_hash t = p_hash pf (enc_payload (x_payload t)) /\
       forall lines, good_transaction (p_hash pf) t -> review (p_hash pf) x t = Some lines \/ bare_review (p_hash pf) x t = Some lines ->
       xexpert_ok x (p_time pf) (x_payload t) -> before_args t < 256 -> xreviews pf x (1 :: data) lines).
Proof. exact form_shown. Qed.
Print Assumptions C71_form_partial.
Example C71_case : forall n x, exists data v, data = enc_transaction (t_native n) /\ bytes data /\ zlen data < 65472 /\ SL.no_leap data /\
  tx_parse demo x (1 :: data) = Ret (TV1 v).
Proof. exact form_case. Qed.

(** The same without the parser: right numbers and strict parts are an
    encoding, with the given hash and payload. *)
Theorem C71_encoding :
  forall k u, form_ok u -> strict u -> exact_numbers k u -> bytes (form_bytes k u) ->
  exists t, form_transaction t /\ form_bytes k u = enc_transaction t /\ x_hash t = f_hash u /\ enc_payload (x_payload t) = form_payload k u.
Proof. exact form_encoding. Qed.
Print Assumptions C71_encoding.
(** The right numbers of a form are possible ones, whatever length [n] is given
    for the arguments. *)
Theorem C71_right_numbers :
  forall n u, SL.word n -> zlen (form_bytes (right_numbers n u) u) < 65536 ->
  numbers_ok (right_numbers n u) u /\ exact_numbers (right_numbers (S.len (argument_bytes (f_args u))) u) u.
Proof. intros n u W L. exact (conj (right_ok n u W L) (right_exact u)). Qed.
Print Assumptions C71_right_numbers.
Example C71_case_encoding : exists u, let k := right_numbers (S.len (argument_bytes (f_args u))) u in
  form_ok u /\ strict u /\ exact_numbers k u /\ bytes (form_bytes k u).
Proof. exact form_encoding_case. Qed.

(** Transactions followed by any bytes are reviewed as without them. *)
Theorem C71_trailing_bytes :
  forall pf x t lines r, hash32 (p_hash pf) -> good_transaction (p_hash pf) t ->
  review (p_hash pf) x t = Some lines \/ bare_review (p_hash pf) x t = Some lines ->
  xexpert_ok x (p_time pf) (x_payload t) -> before_args t < 256 -> zlen (enc_transaction t ++ r) < 65535 ->
  xreviews pf x (1 :: enc_transaction t ++ r) lines.
Proof. exact v1_trailing. Qed.
Print Assumptions C71_trailing_bytes.
Example C71_case_trailing : forall x n, exists lines, good_transaction (p_hash demo) (t_native n) /\ review (p_hash demo) x (t_native n) = Some lines /\
  xexpert_ok x (p_time demo) (x_payload (t_native n)) /\ before_args (t_native n) < 256 /\ zlen (enc_transaction (t_native n) ++ odd_tail) < 65535.
Proof. exact v1_trailing_case. Qed.

(** In full false: a form is accepted in which everything else is wrong. *)
Theorem C71_numbers_refuted :
  exists pf k u, hash32 (p_hash pf) /\ form_ok u /\ numbers_ok k u /\ f_hash u = p_hash pf (form_payload k u) /\
    (exists key, f_initiator u = PublicKey 0 key) /\ (exists a g, f_price u = PClassic a g 77) /\
    n_args k <> S.len (argument_bytes (f_args u)) /\ fst (n_target k) <> S.len (under (snd (n_target k)) (target_fields k (f_target u))) /\
    fst (n_entry k) = 0 /\ fst (n_sched k) = 2 ^ 31 /\
    (exists i r, f_target u = XStored i r /\ ~ starts (n_id k) (id_fields i) /\ ~ starts (n_runtime k) (runtime_fields r) /\
       ~ starts (snd (n_target k)) (target_fields k (f_target u))) /\
    (exists l, f_args u = ANamed l /\ Exists (fun r => SR.odd_type (SL.r_ty r)) l) /\
    Exists (fun a => p_alg a = 0 /\ p_sigalg a = 2) (f_approvals u) /\
    bytes (form_bytes k u) /\ SL.no_leap (form_bytes k u) /\ forall x, accepted pf x (1 :: form_bytes k u).
Proof. exact odd_refuted. Qed.
Print Assumptions C71_numbers_refuted.

(** The length of the arguments is not checked, but the line Args hash is the
    hash of as many bytes: two calls of a contract that differ in the arguments
    have the same review (but for the transaction hash), whose Args hash is the
    hash of no bytes. *)
Theorem C71_args_hash_refuted :
  exists pf a b, hash32 (p_hash pf) /\
    let ka := right_numbers 1 a in let kb := right_numbers 1 b in
    form_ok a /\ numbers_ok ka a /\ f_hash a = p_hash pf (form_payload ka a) /\
    form_ok b /\ numbers_ok kb b /\ f_hash b = p_hash pf (form_payload kb b) /\
    strict a /\ strict b /\ f_args a <> f_args b /\ bytes (form_bytes ka a) /\ bytes (form_bytes kb b) /\
    forall x, look_alike pf x (1 :: form_bytes ka a) (1 :: form_bytes kb b) /\
      exists t i, tx_parse pf x (1 :: form_bytes ka a) = Ret t /\ 0 <= i < getNumItems x t /\
        tx_getItem pf x 40 (1 :: form_bytes ka a) t i = Ret (mkItem (text "Args hash") (VPaged (ST.cep57 (p_hash pf (p_hash pf [])) (p_hash pf [])))).
Proof. exact called_refuted. Qed.
Print Assumptions C71_args_hash_refuted.
