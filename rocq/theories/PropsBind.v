(** Properties C06, C07, C39, C42: what the acceptance of arbitrary bytes as a
    deploy guarantees. *)
From Verif Require Import Base Zxlib Crypto Utils RuntimeArg Deploy DeployUI TxV1 TxV1UI Parser BaseFacts Spec SpecText SpecDeploy Exec TextFacts BindFacts OklFacts Demo DeployCases WitDeploy BindCases WitBind.
Import S ST SD.

(** ** C06  Accepted deploys are bound to their hash *)
(** Both hashes are checked, for every accepted input: the transaction hash
    [dh], which is the one on display, is the hash of what precedes it; the
    body hash, at its place in the header, is the hash of what follows [dh] up
    to where parsing stopped. *)
Theorem C06_hashes_checked :
  forall pf x data v, hash32 (p_hash pf) -> bytes data -> zlen data < 65535 ->
  tx_parse pf x (0 :: data) = Ret (TDeploy v) ->
  exists hdr dh body rest alg key f24 bh post,
    data = hdr ++ dh ++ body ++ rest /\ zlen dh = 32 /\ p_hash pf hdr = dh /\
    data = [alg] ++ key ++ f24 ++ bh ++ post /\
    (alg = 1 /\ zlen key = 32 \/ alg = 2 /\ zlen key = 33) /\ zlen f24 = 24 /\ zlen bh = 32 /\
    p_hash pf body = bh /\
    zlen (hdr ++ dh ++ body) = snd (parse_content 0 (ctx_of pf x false 40 data (zlen data)) 0) /\
    zlen hdr = header_length_deploy (dheader v) /\
    (forall kl, tx_getItem pf x kl (0 :: data) (TDeploy v) 0
                = Ret (mkItem (text "Txn hash") (VPaged (cep57 (p_hash pf dh) dh)))).
Proof. exact hashes_checked. Qed.
Print Assumptions C06_hashes_checked.

(** The header so hashed is a header: every field at its place.  Missing for
    the full claim: the number of dependencies is taken modulo 2048, and must
    be below 2042 modulo 2048. *)
Theorem C06_bound_partial :
  forall pf x data v, hash32 (p_hash pf) -> bytes data -> zlen data < 65535 ->
  tx_parse pf x (0 :: data) = Ret (TDeploy v) -> lenDependencies (dheader v) mod 2048 < 2042 ->
  exists alg key f24 bh deps chain dh body rest,
    let hdr := [alg] ++ key ++ f24 ++ bh ++ le 4 (lenDependencies (dheader v)) ++ deps ++ lv chain in
    data = hdr ++ dh ++ body ++ rest /\
    (alg = 1 /\ zlen key = 32 \/ alg = 2 /\ zlen key = 33) /\ zlen f24 = 24 /\ zlen bh = 32 /\ zlen dh = 32 /\
    zlen deps = 32 * (lenDependencies (dheader v) mod 2048) /\
    p_hash pf hdr = dh /\ p_hash pf body = bh /\
    zlen hdr = header_length_deploy (dheader v) /\
    snd (parse_content 0 (ctx_of pf x false 40 data (zlen data)) 0) = zlen (hdr ++ dh ++ body).
Proof. exact accepted_bound. Qed.
Print Assumptions C06_bound_partial.

(** Two accepted deploys that show the same transaction hash agree on every
    byte of header, hash and body, or a piece of the one and a different
    piece of the other have the same hash. *)
Theorem C06_same_hash_partial :
  forall pf x1 x2 d1 d2 v1 v2 it,
  hash32 (p_hash pf) -> bytes d1 -> bytes d2 -> zlen d1 < 65535 -> zlen d2 < 65535 ->
  tx_parse pf x1 (0 :: d1) = Ret (TDeploy v1) -> tx_parse pf x2 (0 :: d2) = Ret (TDeploy v2) ->
  lenDependencies (dheader v1) mod 2048 < 2042 -> lenDependencies (dheader v2) mod 2048 < 2042 ->
  tx_getItem pf x1 40 (0 :: d1) (TDeploy v1) 0 = Ret it -> tx_getItem pf x2 40 (0 :: d2) (TDeploy v2) 0 = Ret it ->
  (exists signed r1 r2, d1 = signed ++ r1 /\ d2 = signed ++ r2 /\
     snd (parse_content 0 (ctx_of pf x1 false 40 d1 (zlen d1)) 0) = zlen signed /\
     snd (parse_content 0 (ctx_of pf x2 false 40 d2 (zlen d2)) 0) = zlen signed) \/
  (exists a b, (exists p q, d1 = p ++ a ++ q) /\ (exists p q, d2 = p ++ b ++ q) /\ a <> b /\ p_hash pf a = p_hash pf b).
Proof. exact same_hash. Qed.
Print Assumptions C06_same_hash_partial.

(** In general false: bytes that start with no header at all are accepted.
    2048 dependencies are announced and none is there. *)
Theorem C06_bound_refuted :
  exists pf x data v, hash32 (p_hash pf) /\ bytes data /\ zlen data < 65535 /\
    tx_parse pf x (0 :: data) = Ret (TDeploy v) /\
    forall h rest, good_header h -> data <> enc_header h ++ rest.
Proof. exact dependencies_refuted. Qed.
Print Assumptions C06_bound_refuted.

Example C06_case : forall x, exists v,
  hash32 (p_hash demo) /\ bytes plain_tx /\ zlen plain_tx < 65535 /\
  tx_parse demo x (0 :: plain_tx) = Ret (TDeploy v) /\ lenDependencies (dheader v) mod 2048 < 2042.
Proof.
  intros x. destruct (raw_ok_ok _ _ (plain_ok x)) as (B & L & _).
  destruct x; eexists; (split; [exact demo_hash32|]); (split; [exact B|]); (split; [exact L|]); (split; [vm_compute; reflexivity | reflexivity]).
Qed.

(** ** C07  Only standard payment is accepted *)
(** After the transaction hash comes: module bytes, one argument, of type
    U512 (tag 8); and the Fee item is its value.  Missing for the full claim:
    the name of the argument may go on after a NUL byte. *)
Theorem C07_standard_payment_partial :
  forall pf x data v, hash32 (p_hash pf) -> bytes data -> zlen data < 65535 ->
  tx_parse pf x (0 :: data) = Ret (TDeploy v) ->
  exists hdr dh code nm val rest w,
    data = hdr ++ dh ++ (0 :: lv code ++ le 4 1 ++ lv nm ++ lv val ++ [8]) ++ rest /\
    zlen dh = 32 /\ p_hash pf hdr = dh /\
    (nm = text "amount" \/ exists r, nm = text "amount" ++ 0 :: r) /\
    (forall kl, tx_getItem pf x kl (0 :: data) (TDeploy v) (if x then 8 else 4) = Ret (mkItem (text "Fee") w)) /\
    exists n bs, val = n :: bs /\ (zlen bs <= 64 -> exists s, w = VPaged s /\ motes_text (S.value bs) s).
Proof. exact standard_payment. Qed.
Print Assumptions C07_standard_payment_partial.

Theorem C07_payment_name_refuted :
  exists pf x data v hdr dh nm rest, hash32 (p_hash pf) /\ bytes data /\ zlen data < 65535 /\
    tx_parse pf x (0 :: data) = Ret (TDeploy v) /\
    data = hdr ++ dh ++ (0 :: lv [] ++ enc_args [Arg nm [1; 100] (Prim 8)]) ++ rest /\
    zlen dh = 32 /\ p_hash pf hdr = dh /\ nm <> text "amount" /\
    exists w, tx_getItem pf x 40 (0 :: data) (TDeploy v) 4 = Ret (mkItem (text "Fee") w).
Proof. exact payment_name_refuted. Qed.
Print Assumptions C07_payment_name_refuted.

Example C07_case : forall x,
  bytes odd_name /\ zlen odd_name < 65535 /\ exists v, tx_parse demo x (0 :: odd_name) = Ret (TDeploy v).
Proof. intros x. apply raw_ok_ok, odd_name_ok. Qed.

(** ** C39, C42  Items of accepted deploys *)
(** For any size [kl] of the key buffer. *)
Theorem C39_deploy_items :
  forall pf x kl data v idx, hash32 (p_hash pf) -> bytes data -> zlen data < 65535 ->
  tx_parse pf x (0 :: data) = Ret (TDeploy v) ->
  (if x then 10 else 5) <= getNumItems x (TDeploy v) <= (if x then 19 else 14) /\
  (getNumItems x (TDeploy v) <= idx -> tx_getItem pf x kl (0 :: data) (TDeploy v) idx = Fail parser_no_data).
Proof.
  exact (fun pf x kl data v idx Hh B L P =>
    conj (proj1 (shown_all pf x kl data v Hh B L P)) (proj2 (proj2 (shown_all pf x kl data v Hh B L P) idx))).
Qed.
Print Assumptions C39_deploy_items.

Theorem C42_deploy_shown :
  forall pf x kl data v idx, hash32 (p_hash pf) -> bytes data -> zlen data < 65535 ->
  tx_parse pf x (0 :: data) = Ret (TDeploy v) ->
  0 <= idx < getNumItems x (TDeploy v) -> exists it, tx_getItem pf x kl (0 :: data) (TDeploy v) idx = Ret it.
Proof. exact (fun pf x kl data v idx Hh B L P => proj1 (proj2 (shown_all pf x kl data v Hh B L P) idx)). Qed.
Print Assumptions C42_deploy_shown.

Example C42_case : forall x,
  bytes no_deps /\ zlen no_deps < 65535 /\ exists v, tx_parse demo x (0 :: no_deps) = Ret (TDeploy v).
Proof. intros x. apply raw_ok_ok, no_deps_ok. Qed.
