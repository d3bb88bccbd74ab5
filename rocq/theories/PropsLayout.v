(** Properties C12, C13, C15, C35, C39, C42: what the acceptance of arbitrary
    bytes as a TransactionV1 guarantees. *)
From Verif Require Import Base Zxlib Crypto Utils RuntimeArg Deploy DeployUI TxV1 TxV1UI Parser BaseFacts Spec SpecText SpecDeploy SpecTx SpecLayout Exec TextFacts Demo WitDeploy WitTx WitSafe SpecApp App AppFacts AppHist AppClaims AppSign TxAccept TxSign WitApp.
Import S SX SL.

(** ** C12  TransactionV1 layout is enforced *)
(** [layout data tt et c]: every table is where the one above it says, lists its
    fields in index order, and its fields are where it says.  Missing for the
    full claim, and not enforced: entry counts above 255 ([tbl_at] counts modulo
    256), sizes above 65535 ([fin]), 32-bit sums ([place]), and within the
    target of a stored contract or a session the offset of the last field and
    the size. *)
Theorem C12_layout_partial :
  forall pf x data v, hash32 (p_hash pf) -> bytes data -> zlen data < 65535 ->
  parser_parse pf x (1 :: data) = Ret v -> exists tt et c, layout data tt et c.
Proof.
  exact (fun pf x data v Hh B L P => match layout_any pf x data v Hh B L P with
    ex_intro _ tk (ex_intro _ et (ex_intro _ c (conj A _))) => ex_intro _ tk (ex_intro _ et (ex_intro _ c A)) end).
Qed.
Print Assumptions C12_layout_partial.

(** In general false: a table of 3 fields that claims 259 ... *)
Theorem C12_field_count_refuted :
  exists pf data, hash32 (p_hash pf) /\ accepted pf true (1 :: data) /\ value (firstn 4 data) = 259.
Proof. exact field_count_refuted. Qed.
Print Assumptions C12_field_count_refuted.
(** ... one that says its fields are 65536 bytes longer than they are ... *)
Theorem C12_section_size_refuted :
  exists pf data, hash32 (p_hash pf) /\ accepted pf true (1 :: data) /\ value (firstn 4 data) = 3 /\
    26 + value (firstn 4 (skipn 22 data)) = zlen data + 65536.
Proof. exact section_size_refuted. Qed.
Print Assumptions C12_section_size_refuted.
(** ... and the target of a stored contract, its third field said to be at 1234
    instead of 54 and its size to be 4321 instead of 69. *)
Theorem C12_target_size_refuted :
  exists pf t i r pre fields post, hash32 (p_hash pf) /\ good_transaction (p_hash pf) t /\ x_target (x_payload t) = XStored i r /\
    enc_payload (x_payload t) = pre ++ raw_head 3 [0; 1; 54] 69 ++ fields ++ le 2 2 ++ post /\ zlen fields = 69 /\
    let p2 := pre ++ raw_head 3 [0; 1; 1234] 4321 ++ fields ++ le 2 2 ++ post in
    accepted pf true (1 :: table [p_hash pf p2; p2; SX.enc_approvals (x_approvals t)]).
Proof. exact target_size_refuted. Qed.
Print Assumptions C12_target_size_refuted.

Example C12_case n : exists data v, 1 :: data = enc_v1 (t_native n) /\ bytes data /\ zlen data < 65535 /\
  tx_parse demo true (1 :: data) = Ret (TV1 v) /\ 0 < getNumItems true (TV1 v).
Proof. exact (tables_case n). Qed.

(** ** C13  Accepted TransactionV1s are bound to their hash *)
(** The bytes are: the first table, the hash [dh], the payload (its own table
    and as many bytes as that table says), the rest; [dh] is the hash of the
    payload and what the first item shows. *)
Theorem C13_payload_hash :
  forall pf x data v, hash32 (p_hash pf) -> bytes data -> zlen data < 65535 ->
  tx_parse pf x (1 :: data) = Ret (TV1 v) ->
  exists top pay tab dh payload rest,
    data = tab ++ dh ++ payload ++ rest /\ zlen dh = 32 /\ p_hash pf payload = dh /\
    tab = raw_head (t_n top) (t_offs top) (t_size top) /\ tbl_at data 0 top /\
    tbl_at data (zlen tab + 32) pay /\ zlen payload = fin 0 pay /\
    metadata_size (tmeta v) + foff (tmeta v) 0 = zlen tab /\
    forall kl it, tx_getItem pf x kl (1 :: data) (TV1 v) 0 = Ret it -> it = mkItem (str "Txn hash") (VPaged (ST.cep57 (p_hash pf dh) dh)).
Proof. exact payload_bound. Qed.
Print Assumptions C13_payload_hash.

(** What is signed, in any history: 32 bytes [pre], the hash of the payload
    that follows them in the submitted bytes. *)
Theorem C13_signed_hash :
  forall d s tr1 e st p pre tr2 v, device_ok d ->
  reach d s (tr1 ++ (e, st, Signed p pre) :: tr2) -> pending st = Some (RTx (TV1 v)) ->
  exists tab payload rest, tx_data (bufs st) = 1 :: tab ++ pre ++ payload ++ rest /\ zlen pre = 32 /\
     p_hash (plat d) payload = pre /\
     (exists top pay, tab = raw_head (t_n top) (t_offs top) (t_size top) /\ tbl_at tab 0 top /\ tbl_at payload 0 pay /\ zlen payload = fin 0 pay).
Proof. exact (fun d s tr1 e st p pre tr2 v D R P => proj1 (v1_signed d s tr1 e st p pre tr2 v 0 D R P)). Qed.
Print Assumptions C13_signed_hash.

(** Same hash on screen: same payload, or a piece of the one and a different
    piece of the other have the same hash. *)
Theorem C13_same_hash :
  forall pf x1 x2 d1 d2 v1 v2 kl1 kl2 it,
  hash32 (p_hash pf) -> bytes d1 -> bytes d2 -> zlen d1 < 65535 -> zlen d2 < 65535 ->
  tx_parse pf x1 (1 :: d1) = Ret (TV1 v1) -> tx_parse pf x2 (1 :: d2) = Ret (TV1 v2) ->
  tx_getItem pf x1 kl1 (1 :: d1) (TV1 v1) 0 = Ret it -> tx_getItem pf x2 kl2 (1 :: d2) (TV1 v2) 0 = Ret it ->
  (exists t1 t2 dh payload r1 r2, d1 = t1 ++ dh ++ payload ++ r1 /\ d2 = t2 ++ dh ++ payload ++ r2 /\ zlen dh = 32 /\ p_hash pf payload = dh /\
     (exists pay, tbl_at payload 0 pay /\ zlen payload = fin 0 pay)) \/
  (exists a b, (exists p q, d1 = p ++ a ++ q) /\ (exists p q, d2 = p ++ b ++ q) /\ a <> b /\ p_hash pf a = p_hash pf b).
Proof. exact same_payload. Qed.
Print Assumptions C13_same_hash.

Example C13_case n : exists data v it, 1 :: data = enc_v1 (t_native n) /\ bytes data /\ zlen data < 65535 /\
  tx_parse demo true (1 :: data) = Ret (TV1 v) /\ tx_getItem demo true 40 (1 :: data) (TV1 v) 0 = Ret it.
Proof.
  destruct (tables_case n) as (data & v & E & B & L & P & N). destruct (v1_shown_all _ _ 40 _ _ L P) as [_ V].
  destruct (proj1 (V 0) (conj (Z.le_refl 0) N)) as (it & G). eauto 10.
Qed.
Example C13_history_case : exists s tr1 st v pre it, device_ok dev /\
  reach dev s (tr1 ++ [(Approve true, st, Signed (casper 0) pre)]) /\ pending st = Some (RTx (TV1 v)) /\
  review_item dev st (RTx (TV1 v)) 40 0 = Ret it.
Proof. exact v1_history. Qed.

(** ** C15  Stored-contract transactions use a custom entry point *)
(** For any bytes: [tt] is the byte that says which kind of target, 1 for a
    stored contract; [et] the byte that says which entry point, 1 for a custom
    one. *)
Theorem C15_any_bytes :
  forall pf x data v, hash32 (p_hash pf) -> bytes data -> zlen data < 65535 ->
  parser_parse pf x (1 :: data) = Ret v -> exists tt et c, layout data tt et c /\ (tt = 1 -> et = 1).
Proof. exact layout_any. Qed.
Print Assumptions C15_any_bytes.

(** ** C35  What is signed is what is shown: TransactionV1 *)
(** The first item shows the signed hash.  Missing for the full claim: reviews
    without any item (C18). *)
Theorem C35_v1_hash_partial :
  forall d s tr1 e st p pre tr2 v kl, device_ok d ->
  reach d s (tr1 ++ (e, st, Signed p pre) :: tr2) -> pending st = Some (RTx (TV1 v)) ->
  0 < review_count st (RTx (TV1 v)) ->
  review_item d st (RTx (TV1 v)) kl 0 = Ret (mkItem (S.text "Txn hash") (VPaged (ST.cep57 (p_hash (plat d) pre) pre))).
Proof. exact (fun d s tr1 e st p pre tr2 v kl D R P => proj2 (v1_signed d s tr1 e st p pre tr2 v kl D R P)). Qed.
Print Assumptions C35_v1_hash_partial.

(** ** C39, C42  Items of accepted TransactionV1s *)
Theorem C39_v1_items :
  forall pf x kl data v idx, zlen data < 65535 -> tx_parse pf x (1 :: data) = Ret (TV1 v) ->
  0 <= getNumItems x (TV1 v) < 256 /\
  (getNumItems x (TV1 v) <= idx -> tx_getItem pf x kl (1 :: data) (TV1 v) idx = Fail parser_no_data).
Proof. exact (fun pf x kl data v idx L P => conj (proj1 (v1_shown_all pf x kl data v L P)) (proj2 (proj2 (v1_shown_all pf x kl data v L P) idx))). Qed.
Print Assumptions C39_v1_items.
Theorem C42_v1_shown :
  forall pf x kl data v idx, zlen data < 65535 -> tx_parse pf x (1 :: data) = Ret (TV1 v) ->
  0 <= idx < getNumItems x (TV1 v) -> exists it, tx_getItem pf x kl (1 :: data) (TV1 v) idx = Ret it.
Proof. exact (fun pf x kl data v idx L P => proj1 (proj2 (v1_shown_all pf x kl data v L P) idx)). Qed.
Print Assumptions C42_v1_shown.
